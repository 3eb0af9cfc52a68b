(** C82: what a mining was paid and can still get is exactly the sum of what every call added. *)
From stdpp Require Import gmap.
From Verif Require Import Base OMap State Spec EffectSpec Core CoreRun Witness DustSpec DustRun Ledger Program Clients LedgerLemmas LedgerSpec
  CodecLemmas History Scenario Attacks LedgerView LedgerCore LedgerOrderly LossView LedgerDust PropsLedgerDust CapSpec DebtSpec PropsCap PropsDebt
  ReachThms IncomeSpec Income.

Theorem C82_income : forall e, env_ok e -> env_inj e -> forall P k now L now' L' x y z w m w' m',
  reached e now L -> income e P k now L now' L' x y z -> open_in e P k L w m -> open_in e P k L' w' m' ->
  exists q, 0 <= q <= z /\
    10000000000000000 * x + owed (wp_ci w') m' = owed (wp_ci w) m + y - q.
Proof.
  intros e He Hj P k now L now' L' x y z w m w' m' HR HI O O'.
  exact (proj2 (income_booked e He Hj P k now L now' L' x y z HI HR w m w' m' O O')).
Qed.
Print Assumptions C82_income.

(** a last claim at [ts] pays what is still missing *)
Theorem C82_claim : forall e, env_ok e -> env_inj e -> forall P k now ts L now' L' x y z w m w' m' a,
  reached e now L -> income e P k now L now' L' x y z -> open_in e P k L w m -> open_in e P k L' w' m' ->
  now' <= ts -> claim_returns e ts L' P k a ->
  10000000000000000 * (x + a) <= owed (wp_ci w) m + y /\
  ((forall i, ~ In (ts, i) (wp_ci w')) ->
   owed (wp_ci w) m + y <=
   10000000000000000 * (x + a) + z + (10000000000000000 - 1) * (1 + count_due (day_start ts) (wm_diffs m'))).
Proof.
  intros e He Hj P k now ts L now' L' x y z w m w' m' a HR HI O O' Hts Hc.
  exact (income_claim e He Hj P k now ts L now' L' x y z w m w' m' a HI HR O O' Hts Hc).
Qed.
Print Assumptions C82_claim.

(** from its creation on, a mining gets what the calls add to its account, and nothing else *)
Theorem C82_life : forall e, env_ok e -> env_inj e -> forall now0 ts0 ms o L0 r P k ts L now' L' x y z w' m' a,
  reached e now0 L0 -> now0 <= ts0 -> is_u64 ts0 -> ix_in_range (InitializeMining o) ->
  exec e ts0 ms (InitializeMining o) L0 = Ok (L, r) -> account_at ms 1 k ->
  income e P k ts0 L now' L' x y z -> open_in e P k L' w' m' -> now' <= ts -> claim_returns e ts L' P k a ->
  10000000000000000 * (x + a) <= y /\
  ((forall i, ~ In (ts, i) (wp_ci w')) ->
   y <= 10000000000000000 * (x + a) + z + (10000000000000000 - 1) * (1 + count_due (day_start ts) (wm_diffs m'))).
Proof. exact income_life. Qed.
Print Assumptions C82_life.

(** ** Histories *)
Definition open_b (P k : pubkey) (L : ledger) : bool :=
  match data_of L P, data_of L k with
  | DPool w, DMining m =>
      (owner_of L P =? program_id env0) && (owner_of L k =? program_id env0) &&
      (p_type (wp w) =? 1) && (m_type (wm m) =? 2) && (m_pool (wm m) =? P)
  | _, _ => false
  end.
Lemma open_b_ok P k L : open_b P k L = true -> exists w m, open_in env0 P k L w m.
Proof.
  unfold open_b. destruct (data_of L P) as [| |w| | | |] eqn:E1; try discriminate. destruct (data_of L k) as [| | |m| | |] eqn:E2; try discriminate.
  intros H. exists w, m. repeat (apply andb_true_iff in H as [H ?]).
  repeat match goal with X : (_ =? _) = true |- _ => apply Z.eqb_eq in X end.
  repeat split; assumption.
Qed.
Fixpoint account (P k : pubkey) (now : Z) (L : ledger) (l : list call) : option (Z * ledger * (Z * Z * Z)) :=
  if open_b P k L then
    match l with
    | [] => Some (now, L, (0, 0, 0))
    | (ts, (ms, i)) :: r =>
        if (now <=? ts) && u64_b ts && range_b i then
          match exec env0 ts ms i L with
          | Ok (L1, a) =>
              match account P k ts L1 r with
              | Some (n, L2, (x, y, z)) =>
                  Some (n, L2, (takes k ms i a + x, call_adds env0 P k ts ms i L + y, call_slack k ts ms i L + z))
              | None => None
              end
          | Err _ => None
          end
        else None
    end
  else None.
Lemma account_ok P k l : forall now L now' L' x y z,
  account P k now L l = Some (now', L', (x, y, z)) -> income env0 P k now L now' L' x y z.
Proof.
  induction l as [|[ts [ms i]] r IH]; cbn [account]; intros now L now' L' x y z H;
    (destruct (open_b P k L) eqn:W; [apply open_b_ok in W as (w & m & W)|discriminate]).
  - injection H as <- <- <- <- <-. econstructor. exact W.
  - destruct ((now <=? ts) && u64_b ts && range_b i) eqn:E; [|discriminate].
    destruct (exec env0 ts ms i L) as [[L1 a]|] eqn:Ex; [|discriminate].
    destruct (account P k ts L1 r) as [[[n L2] [[x1 y1] z1]]|] eqn:Et; [|discriminate]. injection H as <- <- <- <- <-.
    apply andb_true_iff in E as [E Er]. apply andb_true_iff in E as [E1 E2]. unfold u64_b in E2.
    eapply in_ix; [exact W|lia|unfold is_u64; lia|apply range_b_ok; exact Er|exact Ex|]. apply IH. exact Et.
Qed.
(** the time and the sums at the end, and what a claim a day later would pay *)
Definition result (next : Z) (j : Z) (t : option (Z * ledger * (Z * Z * Z))) : option (Z * (Z * Z * Z) * option Z) :=
  match t with Some (n, L, s) => Some (n, s, claim_now next L j) | None => None end.
Lemma result_ok next j now L l n x y z a :
  result next j (account POOL (mn j) now L l) = Some (n, (x, y, z), Some a) ->
  exists L', income env0 POOL (mn j) now L n L' x y z /\ claim_returns env0 next L' POOL (mn j) a.
Proof.
  intros H. destruct (account POOL (mn j) now L l) as [[[n' L'] [[x' y'] z']]|] eqn:E; [|discriminate].
  cbn [result] in H. injection H as <- <- <- <- Ha. exists L'. split; [eapply account_ok; exact E|].
  unfold claim_now in Ha. destruct (exec env0 next (fst (call_of (OClaim j))) Claim L') as [[L2 r]|] eqn:Ec; [|discriminate]. subst r.
  exists (fst (call_of (OClaim j))), L2. split; [reflexivity|]. split; [reflexivity|assumption].
Qed.

(** The history of C81_example, with stake delegated to a mining that is behind, a penalty and
    stake of the second of a distribution, from the creation of each of the three minings on.  The
    calls add 1432.96 tokens to the first, which is paid 1432 and can claim nothing more a day later;
    2884.07 to the second, which can claim 2884; and 142.69 to the third, which can claim 142. *)
Definition of_wild (j : Z) (n : nat) : option (Z * (Z * Z * Z) * option Z) :=
  result (noon 110) j (account POOL (mn j) (noon 100) (ledger_after (firstn n wild)) (skipn n wild)).
Lemma of_wild_1 : of_wild 1 2 = Some (noon 109, (1432, 14329642951251646180, 49999999999999995), Some 0).
Proof. vm_compute. reflexivity. Qed.
Lemma of_wild_2 : of_wild 2 3 = Some (noon 109, (0, 28840788317962227500, 49999999999999995), Some 2884).
Proof. vm_compute. reflexivity. Qed.
Lemma of_wild_3 : of_wild 3 4 = Some (noon 109, (0, 1426996684233640333, 49999999999999995), Some 142).
Proof. vm_compute. reflexivity. Qed.
Example C82_example :
  reached env0 (noon 100) (ledger_after (firstn 2 wild)) /\
  reached env0 (noon 100) (ledger_after (firstn 3 wild)) /\
  (exists L', income env0 POOL (mn 1) (noon 100) (ledger_after (firstn 2 wild)) (noon 109) L'
     1432 14329642951251646180 49999999999999995 /\ claim_returns env0 (noon 110) L' POOL (mn 1) 0) /\
  (exists L', income env0 POOL (mn 2) (noon 100) (ledger_after (firstn 3 wild)) (noon 109) L'
     0 28840788317962227500 49999999999999995 /\ claim_returns env0 (noon 110) L' POOL (mn 2) 2884).
Proof.
  split; [apply plays_reached; vm_compute; reflexivity|]. split; [apply plays_reached; vm_compute; reflexivity|].
  split.
  - exact (result_ok _ _ _ _ _ _ _ _ _ _ of_wild_1).
  - exact (result_ok _ _ _ _ _ _ _ _ _ _ of_wild_2).
Qed.
(** the creations that start them *)
Lemma last_call a ts ms i now :
  plays a now = true -> plays (a ++ [(ts, (ms, i))]) ts = true ->
  exists r, exec env0 ts ms i (ledger_after a) = Ok (ledger_after (a ++ [(ts, (ms, i))]), r).
Proof.
  intros Ha Hb. pose proof (plays_then _ _ _ _ Ha Hb) as H. cbn [play] in H.
  destruct ((now <=? ts) && u64_b ts && range_b i); cbn [ensure rbind] in H; [|discriminate].
  destruct (exec env0 ts ms i (ledger_after a)) as [[L1 r]|]; cbn [rbind] in H; [|discriminate].
  injection H as H. exists r. rewrite H. reflexivity.
Qed.
Example C82_example_birth :
  exists o1 ms1 r1 o2 ms2 r2,
    exec env0 (noon 100) ms1 (InitializeMining o1) (ledger_after (firstn 1 wild)) = Ok (ledger_after (firstn 2 wild), r1) /\
    account_at ms1 1 (mn 1) /\
    exec env0 (noon 100) ms2 (InitializeMining o2) (ledger_after (firstn 2 wild)) = Ok (ledger_after (firstn 3 wild), r2) /\
    account_at ms2 1 (mn 2).
Proof.
  destruct (last_call (firstn 1 wild) (noon 100) (fst (call_of (snd (init 1)))) (snd (call_of (snd (init 1)))) 0) as [r1 H1];
    [vm_compute; reflexivity|vm_compute; reflexivity|].
  destruct (last_call (firstn 2 wild) (noon 100) (fst (call_of (snd (init 2)))) (snd (call_of (snd (init 2)))) (noon 100)) as [r2 H2];
    [vm_compute; reflexivity|vm_compute; reflexivity|].
  do 6 eexists. split; [exact H1|]. split; [reflexivity|]. split; [exact H2|reflexivity].
Qed.

(** the history of C79_example, in which MALLORY strikes a mining of their own with a pool of their
    own: the distribution adds 1000 tokens to their account, and the strike 1000 more *)
Definition of_life : option (Z * (Z * Z * Z)) :=
  match account POOL (mining_of MALLORY POOL) (at_noon 100) (ledger_after birth) life with
  | Some (n, _, s) => Some (n, s) | None => None end.
Lemma of_life_is : of_life = Some (at_noon 200, (2000, 2000 * 10000000000000000, 39999999999999996)).
Proof. vm_compute. reflexivity. Qed.
Example C82_example_strike :
  (exists L', income env0 POOL (mining_of MALLORY POOL) (at_noon 100) (ledger_after birth) (at_noon 200) L'
     2000 (2000 * 10000000000000000) 39999999999999996) /\
  exists ts ms i, hd_error theft = Some (ts, (ms, i)) /\
    call_adds env0 POOL (mining_of MALLORY POOL) ts ms i (ledger_after before_theft) = 1000 * 10000000000000000.
Proof.
  split.
  - pose proof of_life_is as H. unfold of_life in H.
    destruct (account POOL (mining_of MALLORY POOL) (at_noon 100) (ledger_after birth) life) as [[[n L'] [[x y] z]]|] eqn:E; [|discriminate].
    injection H as -> -> -> ->. exists L'. eapply account_ok. exact E.
  - do 3 eexists. split; [reflexivity|]. vm_compute. reflexivity.
Qed.
