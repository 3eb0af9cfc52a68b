(** Concrete histories and observers used as instances beside the effect theorems.
    Nothing here transcribes /repo. *)
From stdpp Require Import gmap.
From Verif Require Import Base OMap State Spec EffectSpec Ledger Program Clients TreeLemmas CodecLemmas History HistoryLemmas
  LedgerLemmas LedgerSpec HistoryThms ReachThms Scenario Attacks EffectThms EffectMore EffectCompare Horizon.

(** what is left to distribute, the index, the number of recorded days *)
Definition shows (L : ledger) (P : pubkey) : option (Z * Z * Z) :=
  match data_of L P with
  | DPool w => Some (p_avail (wp w), p_index (wp w), Z.of_nat (length (wp_ci w)))
  | _ => None
  end.
(** total share and schedule of a pool *)
Definition shares (L : ledger) (P : pubkey) : option (Z * sched) :=
  match data_of L P with DPool w => Some (p_total (wp w), wp_diffs w) | _ => None end.
(** weighted stake, delegated-in stake, unclaimed rewards, schedule of a mining *)
Definition stake (L : ledger) (k : pubkey) : option (Z * Z * Z * sched) :=
  match data_of L k with
  | DMining m => Some (m_share (wm m), m_sfo (wm m), m_unclaimed (wm m), wm_diffs m)
  | _ => None
  end.
Definition pool_at (L : ledger) (P : pubkey) : wpool := match data_of L P with DPool w => w | _ => zero_wpool end.
Definition mining_at (L : ledger) (k : pubkey) : wmining := match data_of L k with DMining m => m | _ => zero_wmining end.
(** the ledger after the calls *)
Fixpoint calls (l : list call) (L : ledger) : option ledger :=
  match l with
  | [] => Some L
  | c :: r => match exec env0 (fst c) (fst (snd c)) (snd (snd c)) L with
              | Ok (L', _) => calls r L' | Err _ => None end
  end.
Definition after_call {A} (c : call) (L : ledger) (f : ledger -> option A) : option A :=
  match calls [c] L with Some L' => f L' | None => None end.

(** days n, n+1, .., n+k-1 *)
Fixpoint days (n : Z) (k : nat) : list Z := match k with O => [] | S k => n :: days (n + 1) k end.

(** 1095 daily distributions *)
Definition full_history : list call :=
  [(at_noon 100, b_initialize_pool env0 POOL MINT (vault_of POOL) PAYER AUTH FILLER DISTR);
   (at_noon 100, b_initialize_mining POOL (mining_of ALICE POOL) PAYER ALICE);
   (at_noon 100, b_deposit POOL (mining_of ALICE POOL) AUTH (mining_of ALICE POOL) 10 LFlex ALICE ALICE);
   (at_noon 100, b_fill_vault env0 POOL MINT (vault_of POOL) FILLER SOURCE 1000000 (at_noon 2100))] ++
  map (fun n => (at_noon n, b_distribute POOL DISTR)) (days 100 1095).

(** daily distributions with [n], .., 1 whole days left: the tokens of each, and the end *)
Fixpoint spreads (P : pubkey) (n : nat) (ts : Z) (L : ledger) : option (list Z * ledger) :=
  match n with
  | O => Some ([], L)
  | S n' =>
      match data_of L P, exec env0 ts (fst (b_distribute P DISTR)) DistributeRewards L with
      | DPool w, Ok (L1, _) =>
          match data_of L1 P with
          | DPool w1 =>
              if (owner_of L P =? 2) && (owner_of L1 P =? 2) && u64_b ts && negb (ohas (day_start ts) (wp_ci w)) &&
                 (Z.of_nat n * 86400 <=? p_ends_at (wp w) - ts) && (p_ends_at (wp w) - ts <? (Z.of_nat n + 1) * 86400)
              then match spreads P n' (ts + 86400) L1 with
                   | Some (parts, L') => Some ((p_avail (wp w) - p_avail (wp w1)) :: parts, L')
                   | None => None
                   end
              else None
          | _ => None
          end
      | _, _ => None
      end
  end.

Lemma spreads_ok P n : forall ts L parts L' now,
  spreads P n ts L = Some (parts, L') -> now <= ts -> spread env0 P (Z.of_nat n) now L parts L'.
Proof.
  induction n as [|n IH]; intros ts L parts L' now H Hn.
  - injection H as <- <-. constructor.
  - cbn [spreads] in H. destruct (data_of L P) as [| |w| | | |] eqn:Ew; try discriminate.
    destruct (exec env0 ts _ DistributeRewards L) as [[L1 r]|] eqn:Ex; [|discriminate].
    destruct (data_of L1 P) as [| |w1| | | |] eqn:Ew1; try discriminate.
    match type of H with (if ?b then _ else _) = _ => destruct b eqn:Eb end; [|discriminate].
    destruct (spreads P n (ts + 86400) L1) as [[ps L2]|] eqn:Es; [|discriminate]. injection H as <- <-.
    repeat match goal with H : _ && _ = true |- _ => apply andb_true_iff in H as [? ?] end.
    assert (Hu : is_u64 ts) by (unfold u64_b, is_u64 in *; lia).
    rewrite Nat2Z.inj_succ. unfold Z.succ.
    apply (spread_cons env0 P (Z.of_nat n) now L ts (fst (b_distribute P DISTR)) r w L1 w1 [] ts L1 w1 ps L2); try assumption; try reflexivity.
    + split; [cbn; lia|assumption].
    + match goal with H : negb _ = true |- _ => apply negb_true_iff in H; apply ohas_false in H; rewrite oget_none in H end.
      intros [v Hv]. match goal with H : forall v, ~ In _ _ |- _ => exact (H v Hv) end.
    + match goal with H : (_ <=? _) = true, H0 : (_ <? _) = true |- _ => apply Z.leb_le in H; apply Z.ltb_lt in H0 end.
      unfold whole_days_left. lia.
    + split; [cbn; lia|assumption].
    + constructor.
    + split; [cbn; lia|assumption].
    + apply (IH (ts + 86400)); [assumption|lia].
Qed.

(** repeated early extensions of a one-year stake; the vault holds rewards *)
Definition alice_extends (day : Z) : call :=
  (at_noon day, b_extend POOL (mining_of ALICE POOL) AUTH (mining_of ALICE POOL) L1Y L1Y (at_noon (day - 1)) 100 0 ALICE ALICE).
Definition extensions : list call :=
  [(at_noon 100, b_initialize_pool env0 POOL MINT (vault_of POOL) PAYER AUTH FILLER DISTR);
   (at_noon 100, b_initialize_mining POOL (mining_of ALICE POOL) PAYER ALICE);
   (at_noon 100, b_deposit POOL (mining_of ALICE POOL) AUTH (mining_of ALICE POOL) 100 L1Y ALICE ALICE);
   (at_noon 100, b_fill_vault env0 POOL MINT (vault_of POOL) FILLER SOURCE 100000 (at_noon 600));
   alice_extends 101; alice_extends 102].

Lemma extensions_reached : reached env0 (at_noon 102) (ledger_after extensions).
Proof. apply plays_reached. vm_compute. reflexivity. Qed.
Lemma extensions_pool : is_pool env0 (ledger_after extensions) POOL (pool_at (ledger_after extensions) POOL).
Proof. split; vm_compute; reflexivity. Qed.
(** from day 466 on, whoever calls with whatever accounts and amounts *)
Lemma extensions_freeze :
  reached env0 (at_noon 102) (ledger_after extensions) /\
  forall ts ms i, 466 * 86400 <= ts -> is_u64 ts -> ix_in_range i -> uses_total i -> account_at ms (pool_position i) POOL ->
    exists er, exec env0 ts ms i (ledger_after extensions) = Err er.
Proof.
  split; [exact extensions_reached|]. intros ts ms i Hts Hu Hi Hut HP.
  apply (stuck env0 env0_ok (at_noon 102) ts ms i _ POOL (pool_at (ledger_after extensions) POOL)
           extensions_reached); try assumption; [unfold at_noon; lia|exact extensions_pool|].
  assert (Hd : 466 * 86400 <= day_start ts).
  { unfold day_start. pose proof (Z.div_le_mono (466 * 86400) ts 86400 ltac:(lia) Hts) as X. rewrite Z.div_mul in X; lia. }
  assert (E1 : p_total (wp (pool_at (ledger_after extensions) POOL)) = 600) by (vm_compute; reflexivity).
  assert (E2 : wp_diffs (pool_at (ledger_after extensions) POOL) = [(40176000, 500); (40262400, 500); (40348800, 500)])
    by (vm_compute; reflexivity).
  rewrite E1, E2. cbn [due]. rewrite (proj2 (Z.leb_le 40176000 _)), (proj2 (Z.leb_le 40262400 _)) by lia.
  destruct (40348800 <=? day_start ts); lia.
Qed.

(** one-year deposits on consecutive days: the mining has room for 50 dates *)
Definition bob_deposits (p : lockup) (n : Z) : call :=
  (at_noon n, b_deposit POOL (mining_of BOB POOL) AUTH (mining_of BOB POOL) 10 p BOB BOB).
Definition many_deposits (p : lockup) (n : nat) : list call :=
  [(at_noon 100, b_initialize_pool env0 POOL MINT (vault_of POOL) PAYER AUTH FILLER DISTR);
   (at_noon 100, b_initialize_mining POOL (mining_of BOB POOL) PAYER BOB)] ++
  map (bob_deposits p) (days 100 n).

(** three stakers of 100, 50 and 150, each for three months; rewards before and after the
    bonuses expire *)
Definition DAVE : pubkey := 36.
Definition split_stakes : list call :=
  [(at_noon 100, b_initialize_pool env0 POOL MINT (vault_of POOL) PAYER AUTH FILLER DISTR);
   (at_noon 100, b_initialize_mining POOL (mining_of ALICE POOL) PAYER ALICE);
   (at_noon 100, b_initialize_mining POOL (mining_of BOB POOL) PAYER BOB);
   (at_noon 100, b_initialize_mining POOL (mining_of CAROL POOL) PAYER CAROL);
   (at_noon 100, b_initialize_mining POOL (mining_of DAVE POOL) PAYER DAVE);
   (at_noon 100, b_deposit POOL (mining_of ALICE POOL) AUTH (mining_of ALICE POOL) 101 L3M ALICE ALICE);
   (at_noon 100, b_deposit POOL (mining_of BOB POOL) AUTH (mining_of BOB POOL) 52 L3M BOB BOB);
   (at_noon 100, b_deposit POOL (mining_of CAROL POOL) AUTH (mining_of CAROL POOL) 153 L3M CAROL CAROL);
   (at_noon 100, b_deposit POOL (mining_of DAVE POOL) AUTH (mining_of DAVE POOL) 77 LFlex DAVE DAVE);
   (at_noon 100, b_fill_vault env0 POOL MINT (vault_of POOL) FILLER SOURCE 50000 (at_noon 200));
   (at_noon 101, b_distribute POOL DISTR);
   (at_noon 195, b_distribute POOL DISTR)].
Definition refreshed_at (L : ledger) (P k : pubkey) (ts : Z) : option wmining :=
  match data_of L P, data_of L k with
  | DPool w, DMining m => match refresh ts (wp_ci w) m with Ok m' => Some m' | Err _ => None end
  | _, _ => None
  end.
Definition credit_at (L : ledger) (P k : pubkey) (ts : Z) : option Z :=
  option_map (credited (mining_at L k)) (refreshed_at L P k ts).
