(** C79: whatever anybody does, a mining takes no more than its largest stake times the index. *)
From stdpp Require Import gmap.
From Verif Require Import Base OMap State Spec EffectSpec Ledger Program Clients ResLemmas LedgerLemmas LedgerSpec CodecLemmas
  History HistoryThms ReachThms EffectMore Scenario Attacks FreezeSpec CapSpec Cap.

(** one instruction of anybody, whatever its accounts: the mining's index does not fall, and what it
    pays for the mining and keeps for it is at most the mining's stake, with what is delegated to it
    before or after, times the rise of the mining's index *)
Theorem C79_call : forall e, env_ok e -> forall now ts ms i L L' r k m m' s d,
  reached e now L -> now <= ts -> ix_in_range i -> exec e ts ms i L = Ok (L', r) ->
  is_mining e L k m -> is_mining e L' k m' -> m_type (wm m') = TYPE_MINING ->
  m_share (wm m) <= s -> m_sfo (wm m) <= d -> m_sfo (wm m') <= d ->
  capped s d m (takes k ms i r) m'.
Proof. exact exec_cap. Qed.
Print Assumptions C79_call.

(** any history in which the mining stays open *)
Theorem C79_history : forall e, env_ok e -> forall s d k now L evs now' L' x,
  taken e s d k now L evs now' L' x -> reached e now L ->
  forall m m', is_mining e L k m -> is_mining e L' k m' -> capped s d m x m'.
Proof. exact taken_cap. Qed.
Print Assumptions C79_history.

(** at a claim: everything paid so far, with this claim, is at most what was kept for the mining at
    the start and the largest stake times the pool's index *)
Theorem C79_claims : forall e, env_ok e -> forall s d k now L evs now' L' x ts ms L2 y P w m,
  taken e s d k now L evs now' L' x -> reached e now L ->
  is_mining e L k m -> now' <= ts -> exec e ts ms Claim L' = Ok (L2, Some y) -> account_at ms 3 k -> account_at ms 0 P ->
  is_pool e L' P w ->
  10000000000000000 * (x + y - m_unclaimed (wm m)) <= (s + d) * (p_index (wp w) - m_index (wm m)).
Proof. exact taken_claim. Qed.
Print Assumptions C79_claims.

(** the cap is reached by a strike with a history that had got where it is before the mining's
    bonuses expired: a claim then pays the full weight for all of it, expired or not *)
Theorem C79_overtime : forall e, env_ok e -> forall now ts L L1 r Q j auth owner k wQ mk x ms L2 y P w,
  reached e now L -> now <= ts -> is_u64 ts -> is_key x ->
  exec e ts (strike_on Q j auth owner k) (ChangeDelegate 0 x) L = Ok (L1, r) ->
  is_pool e L Q wQ -> is_mining e L k mk -> k <> j ->
  (forall d v, In (d, v) (wm_diffs mk) -> d <= day_start ts -> visible d (wp_ci wQ) = visible ts (wp_ci wQ)) ->
  exec e ts ms Claim L1 = Ok (L2, Some y) -> account_at ms 3 k -> account_at ms 0 P -> is_pool e L1 P w ->
  y = m_unclaimed (wm mk) + (visible ts (wp_ci wQ) - m_index (wm mk)) * (m_share (wm mk) + m_sfo (wm mk)) / 10000000000000000
      + (visible ts (wp_ci w) - visible ts (wp_ci wQ)) * (m_share (wm mk) - due (day_start ts) (wm_diffs mk) + m_sfo (wm mk)) / 10000000000000000.
Proof. exact overtime. Qed.
Print Assumptions C79_overtime.

(** ** A history that reaches the cap: MALLORY's mining in POOL, from its creation to the claim after
    the strike.  It never has more than 200 weighted stake, POOL's index ends at 10 * 10^16, and it
    is paid 2000. *)
Definition within_b (s d : Z) (k : pubkey) (L : ledger) : bool :=
  match data_of L k with
  | DMining m => (owner_of L k =? 2) && (m_type (wm m) =? 2) && (m_share (wm m) <=? s) && (m_sfo (wm m) <=? d)
  | _ => false end.
Lemma within_b_ok s d k L : within_b s d k L = true -> within env0 s d k L.
Proof.
  unfold within_b. destruct (data_of L k) eqn:E; try discriminate. intros H.
  apply andb_true_iff in H as [H H4]. apply andb_true_iff in H as [H H3]. apply andb_true_iff in H as [H1 H2].
  eexists. apply Z.eqb_eq in H1, H2. apply Z.leb_le in H3, H4. split; [split; [exact H1|exact E]|]. auto.
Qed.

Fixpoint tally (s d : Z) (k : pubkey) (now : Z) (L : ledger) (l : list call) : option (Z * ledger * Z) :=
  if within_b s d k L then
    match l with
    | [] => Some (now, L, 0)
    | (ts, (ms, i)) :: r =>
        if (now <=? ts) && u64_b ts && range_b i then
          match exec env0 ts ms i L with
          | Ok (L1, a) => match tally s d k ts L1 r with Some (n, L2, x) => Some (n, L2, takes k ms i a + x) | None => None end
          | Err _ => None
          end
        else None
    end
  else None.
Lemma tally_ok s d k l : forall now L now' L' x, tally s d k now L l = Some (now', L', x) ->
  taken env0 s d k now L (events l) now' L' x.
Proof.
  induction l as [|[ts [ms i]] r IH]; cbn [tally events map fst snd]; intros now L now' L' x H;
    (destruct (within_b s d k L) eqn:W; [apply within_b_ok in W|discriminate]).
  - injection H as <- <- <-. constructor. exact W.
  - destruct ((now <=? ts) && u64_b ts && range_b i) eqn:E; [|discriminate].
    destruct (exec env0 ts ms i L) as [[L1 a]|] eqn:Ex; [|discriminate].
    destruct (tally s d k ts L1 r) as [[[n L2] y]|] eqn:Et; [|discriminate]. injection H as <- <- <-.
    apply andb_true_iff in E as [E Er]. apply andb_true_iff in E as [E1 E2]. unfold u64_b in E2.
    eapply tk_ix; [exact W|lia|unfold is_u64; lia|apply range_b_ok; exact Er|exact Ex|]. apply IH. exact Et.
Qed.

Definition birth : list call := firstn 2 before_theft.
Definition life : list call := skipn 2 before_theft ++ theft.
Definition end_of (t : option (Z * ledger * Z)) : option (Z * Z * Z) :=
  match t with
  | Some (n, L, x) => match data_of L POOL with DPool w => Some (n, x, p_index (wp w)) | _ => None end
  | None => None end.
Lemma end_of_ok t n x j : end_of t = Some (n, x, j) -> exists L', t = Some (n, L', x).
Proof.
  destruct t as [[[n' L'] x']|]; [|discriminate]. unfold end_of. destruct (data_of L' POOL); try discriminate.
  intros H. injection H as -> -> _. exists L'. reflexivity.
Qed.
Lemma life_ends : end_of (tally 200 0 (mining_of MALLORY POOL) (at_noon 100) (ledger_after birth) life)
    = Some (at_noon 200, 2000, 10 * 10000000000000000).
Proof. vm_compute. reflexivity. Qed.
Example C79_example :
  reached env0 (at_noon 100) (ledger_after birth) /\
  end_of (tally 200 0 (mining_of MALLORY POOL) (at_noon 100) (ledger_after birth) life)
    = Some (at_noon 200, 2000, 10 * 10000000000000000) /\
  unclaimed_of (ledger_after birth) (mining_of MALLORY POOL) = 0 /\
  exists L', taken env0 200 0 (mining_of MALLORY POOL) (at_noon 100) (ledger_after birth) (events life) (at_noon 200) L' 2000.
Proof.
  split; [apply plays_reached; vm_compute; reflexivity|]. split; [exact life_ends|]. split; [vm_compute; reflexivity|].
  destruct (end_of_ok _ _ _ _ life_ends) as [L' E]. exists L'. apply tally_ok. exact E.
Qed.

(** the strike and the claim of [theft] are a case of C79_overtime: a bonus of MALLORY's has expired,
    and POOL2 had the index of POOL before *)
Definition flat (ts : Z) (L : ledger) : bool :=
  match data_of L POOL2, data_of L POOL, data_of L (mining_of MALLORY POOL) with
  | DPool q, DPool w, DMining m =>
      existsb (fun x => fst x <=? day_start ts) (wm_diffs m) && (0 <? due (day_start ts) (wm_diffs m)) &&
      forallb (fun x => (day_start ts <? fst x) || (visible (fst x) (wp_ci q) =? visible ts (wp_ci q))) (wm_diffs m) &&
      (visible ts (wp_ci q) =? visible ts (wp_ci w))
  | _, _, _ => false end.
Example C79_example_overtime :
  plays before_theft (at_noon 195) = true /\ flat (at_noon 200) (ledger_after before_theft) = true /\
  plays (before_theft ++ theft) (at_noon 200) = true /\
  hd_error theft = Some (at_noon 200, (strike_on POOL2 (mining_of MALLORY POOL2) MALLORY MALLORY (mining_of MALLORY POOL), ChangeDelegate 0 MALLORY)).
Proof. vm_compute. auto. Qed.
