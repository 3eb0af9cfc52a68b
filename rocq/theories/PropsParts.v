(** C92: dividing a stake among two accounts never gains anything, and loses no more than rounding. *)
From stdpp Require Import gmap.
From Verif Require Import Base OMap State Spec EffectSpec SuccessSpec Ledger Program Clients LedgerLemmas LedgerSpec
  CodecLemmas History Scenario Attacks HistoryThms ReachThms FreezeSpec PropsFreeze CapSpec IncomeSpec DiarySpec Diary PropsDiary LogSpec Log PropsLog
  CompareSpec Compare PropsCompare LongerSpec Longer PropsLonger OwnSpec Own PropsOwn OftenSpec PropsOften PartsSpec Parts.

(** In one history there is one staker, in another there are two, who hold and do together what the one
    does.  Everything else is the same.  Then the pools stay alike, the two hold together what the one
    holds, and at any time what the two were paid and can claim together is never more than what the one
    was paid and can claim, and less at most by one token for each call on the mining, for each date put
    on its schedule, and for the last claim. *)
Theorem C92_split : forall e1 e2, env_ok e1 -> env_ok e2 -> forall P1 P2 k k1 k2 now1 L1 now1' L1' now2 L2 now2' L2' b c d x y z v w v' w' m n o m' n' o' ts,
  reached e1 now1 L1 -> reached e2 now2 L2 ->
  full_log e1 P1 k now1 L1 now1' L1' b x -> full_log e2 P2 k1 now2 L2 now2' L2' c y -> full_log e2 P2 k2 now2 L2 now2' L2' d z -> shared b c d ->
  is_pool e1 L1 P1 v -> is_pool e2 L2 P2 w -> pools_alike v w ->
  is_mining e1 L1 k m -> is_mining e2 L2 k1 n -> is_mining e2 L2 k2 o -> parted m n o -> m_unclaimed (wm m) = m_unclaimed (wm n) + m_unclaimed (wm o) ->
  is_pool e1 L1' P1 v' -> is_pool e2 L2' P2 w' -> is_mining e1 L1' k m' -> is_mining e2 L2' k1 n' -> is_mining e2 L2' k2 o' ->
  pools_alike v' w' /\ parted m' n' o' /\
  let alone := x + tokens_at ts (wp_ci v') m' in
  let together := (y + tokens_at ts (wp_ci w') n') + (z + tokens_at ts (wp_ci w') o') in
  together <= alone <= together + how_many works b + how_many plans b + Z.of_nat (length (wm_diffs m)) + 1.
Proof. exact in_two_parts. Qed.
Print Assumptions C92_split.

(** ** ALICE alone, or ALICE and BOB, beside CAROL *)
Definition three : list call := two_pools ++ [(at_noon 100, b_initialize_mining POOL (mining_of CAROL POOL) PAYER CAROL)].
Definition each (two : bool) (f : pubkey -> Z -> list call) (a b : Z) : list call := if two then f ALICE a ++ f BOB b else f ALICE (a + b).
Definition stake (d : Z) (p : lockup) (who : pubkey) (a : Z) : list call :=
  [(at_noon d, b_deposit POOL (mining_of who POOL) AUTH (mining_of who POOL) a p who who)].
Definition unstake (d : Z) (who : pubkey) (a : Z) : list call :=
  [(at_noon d, b_withdraw POOL (mining_of who POOL) AUTH (mining_of who POOL) a who who)].
Definition prolong (d : Z) (who : pubkey) (b : Z) : list call :=
  [(at_noon d, b_extend POOL (mining_of who POOL) AUTH (mining_of who POOL) L3M L1Y (at_noon 101) b (b / 5) who who)].
Definition cash (d : Z) (who : pubkey) (_ : Z) : list call :=
  [(at_noon d, b_claim env0 POOL MINT (vault_of POOL) (mining_of who POOL) who AUTH (if who =? ALICE then ALICE_T else BOB_T))].
Definition a_share (two : bool) : list call :=
  each two (stake 101 L3M) 61 39 ++ stake 101 L6M CAROL 53 ++
  [(at_noon 102, b_fill_vault env0 POOL MINT (vault_of POOL) FILLER SOURCE 1000 (at_noon 106)); (at_noon 103, b_distribute POOL DISTR)] ++
  each two (cash 103) 0 0 ++ each two (stake 104 LFlex) 20 10 ++ [(at_noon 104, b_distribute POOL DISTR)] ++
  each two (prolong 105) 30 20 ++ [(at_noon 105, b_distribute POOL DISTR)] ++ each two (unstake 106) 5 2 ++
  [(at_noon 106, b_distribute POOL DISTR); (at_noon 189, b_fill_vault env0 POOL MINT (vault_of POOL) FILLER SOURCE 700 (at_noon 193));
   (at_noon 190, b_distribute POOL DISTR); (at_noon 192, b_distribute POOL DISTR)] ++ each two (cash 193) 0 0.
Definition share (two : bool) (who : pubkey) := write_log POOL (mining_of who POOL) (at_noon 100) (ledger_after three) (a_share two).
(** what was paid to the owner of a mining and can be claimed *)
Definition has (h : option (Z * ledger * list full_entry * Z)) (who : pubkey) (ts : Z) : option (Z * Z * Z) :=
  match h with
  | Some (now, L, b, x) =>
      match pool_at L POOL, mining_at L (mining_of who POOL) with
      | Some v, Some m => Some (now, x, x + tokens_at ts (wp_ci v) m) | _, _ => None end
  | None => None
  end.
Ltac share_out :=
  repeat first [apply sh_same | apply sh_claim; [discriminate|] | apply sh_split; [discriminate|vm_compute; repeat split; reflexivity|]]; apply sh_nil.
Lemma a_share_shared : shared (entries (share false ALICE)) (entries (share true ALICE)) (entries (share true BOB)).
Proof. written (entries (share false ALICE)). written (entries (share true ALICE)). written (entries (share true BOB)). share_out. Qed.
Lemma three_reached : reached env0 (at_noon 100) (ledger_after three).
Proof. apply plays_reached. vm_compute. reflexivity. Qed.
Lemma three_start :
  match mining_at (ledger_after three) (mining_of ALICE POOL), mining_at (ledger_after three) (mining_of BOB POOL) with
  | Some m, Some n => m_unclaimed (wm m) = 0 /\ m_unclaimed (wm n) = 0 /\ wm_diffs m = [] /\ wm_diffs n = [] /\ m_share (wm m) = 0 /\ m_share (wm n) = 0 /\
      m_sfo (wm m) = 0 /\ m_sfo (wm n) = 0 /\ m_index (wm m) = 0 /\ m_index (wm n) = 0
  | _, _ => False end.
Proof. vm_compute. repeat split. Qed.
Example C92_example :
  shared (entries (share false ALICE)) (entries (share true ALICE)) (entries (share true BOB)) /\
  how_many works (entries (share false ALICE)) = 6 /\ how_many plans (entries (share false ALICE)) = 3 /\
  has (share false ALICE) ALICE (at_noon 195) = Some (at_noon 193, 999, 999) /\
  has (share true ALICE) ALICE (at_noon 195) = Some (at_noon 193, 609, 609) /\
  has (share true BOB) BOB (at_noon 195) = Some (at_noon 193, 388, 388).
Proof. split; [exact a_share_shared|]. vm_compute. repeat split. Qed.

(** ** ALICE stakes 2, or ALICE and BOB 1 each, and CAROL 98; 99 tokens are distributed on each of 20 days, after which they claim or do not *)
Definition a_crumb (two eager : bool) : list call :=
  each two (stake 101 LFlex) 1 1 ++ stake 101 LFlex CAROL 98 ++
  [(at_noon 102, b_fill_vault env0 POOL MINT (vault_of POOL) FILLER SOURCE 1881 (at_noon 123))] ++
  flat_map (fun n => (at_noon (103 + Z.of_nat n), b_distribute POOL DISTR) :: if eager then each two (cash (103 + Z.of_nat n)) 0 0 else []) (seq 0 20).
Definition crumb (two eager : bool) (who : pubkey) := write_log POOL (mining_of who POOL) (at_noon 100) (ledger_after three) (a_crumb two eager).
(** [write_log] of two minings follows the same calls *)
Lemma same_end P k1 k2 p : forall t L now1 L1 b x now2 L2 c y,
  write_log P k1 t L p = Some (now1, L1, b, x) -> write_log P k2 t L p = Some (now2, L2, c, y) -> now1 = now2 /\ L1 = L2.
Proof.
  induction p as [|[ts [ms i]] p IH]; intros t L now1 L1 b x now2 L2 c y; cbn [write_log].
  - destruct (running_b P L && mining_b k1 L); [|discriminate]. destruct (running_b P L && mining_b k2 L); [|discriminate].
    intros H1 H2. split; congruence.
  - destruct (running_b P L && mining_b k1 L); [|discriminate]. destruct (running_b P L && mining_b k2 L); [|discriminate].
    destruct (_ && home_b P k1 ms i); [|discriminate]. destruct (_ && home_b P k2 ms i); [|discriminate].
    destruct (exec env0 ts ms i L) as [[M a]|]; [|discriminate].
    destruct (write_log P k1 ts M p) as [[[[n1 M1] b1] x1]|] eqn:E1; [|discriminate]. destruct (write_log P k2 ts M p) as [[[[n2 M2] c1] y1]|] eqn:E2; [|discriminate].
    intros H1 H2. destruct (IH _ _ _ _ _ _ _ _ _ _ E1 E2) as [-> ->]. split; congruence.
Qed.
(** the states at the ends of logs that can be written *)
Lemma three_logs p q t f1 f2 f3 (Q : list full_entry -> list full_entry -> list full_entry -> Prop) :
  Q (entries (write_log POOL (mining_of ALICE POOL) (at_noon 100) (ledger_after three) p))
    (entries (write_log POOL (mining_of ALICE POOL) (at_noon 100) (ledger_after three) q))
    (entries (write_log POOL (mining_of BOB POOL) (at_noon 100) (ledger_after three) q)) ->
  has (write_log POOL (mining_of ALICE POOL) (at_noon 100) (ledger_after three) p) ALICE t = Some f1 ->
  has (write_log POOL (mining_of ALICE POOL) (at_noon 100) (ledger_after three) q) ALICE t = Some f2 ->
  has (write_log POOL (mining_of BOB POOL) (at_noon 100) (ledger_after three) q) BOB t = Some f3 ->
  exists now1 L1 now2 L2 b c d x y z v w m n o,
    reached env0 (at_noon 100) (ledger_after three) /\
    full_log env0 POOL (mining_of ALICE POOL) (at_noon 100) (ledger_after three) now1 L1 b x /\
    full_log env0 POOL (mining_of ALICE POOL) (at_noon 100) (ledger_after three) now2 L2 c y /\
    full_log env0 POOL (mining_of BOB POOL) (at_noon 100) (ledger_after three) now2 L2 d z /\ Q b c d /\
    is_pool env0 L1 POOL v /\ is_pool env0 L2 POOL w /\
    is_mining env0 L1 (mining_of ALICE POOL) m /\ is_mining env0 L2 (mining_of ALICE POOL) n /\ is_mining env0 L2 (mining_of BOB POOL) o /\
    f1 = (now1, x, x + tokens_at t (wp_ci v) m) /\ f2 = (now2, y, y + tokens_at t (wp_ci w) n) /\ f3 = (now2, z, z + tokens_at t (wp_ci w) o).
Proof.
  intros F I1 I2 I3. pose proof three_reached as R. unfold has, entries in *.
  set (L0 := ledger_after three) in *. set (k := mining_of ALICE POOL) in *. set (k2 := mining_of BOB POOL) in *. set (t0 := at_noon 100) in *. clearbody L0 k k2 t0.
  destruct (write_log POOL k t0 L0 p) as [[[[n1 L1] b] x]|] eqn:E1; [|discriminate].
  destruct (write_log POOL k t0 L0 q) as [[[[n2 L2] c] y]|] eqn:E2; [|discriminate].
  destruct (write_log POOL k2 t0 L0 q) as [[[[n3 L3] d] z]|] eqn:E3; [|discriminate].
  destruct (same_end _ _ _ _ _ _ _ _ _ _ _ _ _ _ E2 E3) as [<- <-]. apply write_log_ok in E1, E2, E3.
  destruct (full_log_end_pool _ _ _ _ _ _ _ _ _ E1) as (v & Hv & _). destruct (full_log_end_pool _ _ _ _ _ _ _ _ _ E2) as (w & Hw & _).
  destruct (full_log_end _ _ _ _ _ _ _ _ _ E1) as (m & Hm & _). destruct (full_log_end _ _ _ _ _ _ _ _ _ E2) as (n & Hn & _).
  destruct (full_log_end _ _ _ _ _ _ _ _ _ E3) as (o & Ho & _).
  unfold mining_at, pool_at in I1, I2, I3. rewrite (proj2 Hm), (proj2 Hv) in I1. rewrite (proj2 Hn), (proj2 Hw) in I2. rewrite (proj2 Ho), (proj2 Hw) in I3.
  injection I1 as <-. injection I2 as <-. injection I3 as <-.
  exists n1, L1, n2, L2, b, c, d, x, y, z, v, w, m, n, o. repeat (split; [eassumption|]). split; [reflexivity|]. split; reflexivity.
Qed.
Lemma crumbs_shared : shared (entries (crumb false true ALICE)) (entries (crumb true true ALICE)) (entries (crumb true true BOB)).
Proof. written (entries (crumb false true ALICE)). written (entries (crumb true true ALICE)). written (entries (crumb true true BOB)). share_out. Qed.
Lemma crumbs_but_claims : shared (but_claims (entries (crumb false true ALICE))) (but_claims (entries (crumb true false ALICE))) (but_claims (entries (crumb true false BOB))).
Proof.
  written (but_claims (entries (crumb false true ALICE))). written (but_claims (entries (crumb true false ALICE))). written (but_claims (entries (crumb true false BOB))). share_out.
Qed.
(** The rounding is real: within the hypotheses of [C92_split] the one gets 19 tokens and the two get nothing at all. *)
Theorem C92_nothing : exists e P k1 k2 now L now1 L1 now2 L2 b c d x y z v w m n o ts,
  env_ok e /\ reached e now L /\ full_log e P k1 now L now1 L1 b x /\ full_log e P k1 now L now2 L2 c y /\ full_log e P k2 now L now2 L2 d z /\
  shared b c d /\ is_pool e L1 P v /\ is_pool e L2 P w /\ is_mining e L1 k1 m /\ is_mining e L2 k1 n /\ is_mining e L2 k2 o /\
  x + tokens_at ts (wp_ci v) m = 19 /\ y + tokens_at ts (wp_ci w) n = 0 /\ z + tokens_at ts (wp_ci w) o = 0.
Proof.
  destruct (three_logs (a_crumb false true) (a_crumb true true) (at_noon 195) (at_noon 122, 19, 19) (at_noon 122, 0, 0) (at_noon 122, 0, 0) shared)
    as (now1 & L1 & now2 & L2 & b & c & d & x & y & z & v & w & m & n & o & R & D1 & D2 & D3 & S & V & W & M & N & O & E1 & E2 & E3);
    [exact crumbs_shared|vm_compute; reflexivity|vm_compute; reflexivity|vm_compute; reflexivity|].
  set (L0 := ledger_after three) in *. set (k := mining_of ALICE POOL) in *. set (k2 := mining_of BOB POOL) in *. set (t0 := at_noon 100) in *. set (t1 := at_noon 195) in *. clearbody L0 k k2 t0 t1.
  injection E1 as _ _ E1. injection E2 as _ _ E2. injection E3 as _ _ E3.
  exists env0, POOL, k, k2, t0, L0, now1, L1, now2, L2, b, c, d, x, y, z, v, w, m, n, o, t1. split; [exact env0_ok|].
  repeat (split; [first [eassumption|symmetry; eassumption]|]). symmetry. exact E3.
Qed.
Print Assumptions C92_nothing.

(** ** What does not hold *)
(** They must claim at the same times: two who wait get more than one who claims every day. *)
Theorem C92_claims_refuted : exists e P k1 k2 now L now1 L1 now2 L2 b c d x y z v w m n o ts,
  env_ok e /\ reached e now L /\ full_log e P k1 now L now1 L1 b x /\ full_log e P k1 now L now2 L2 c y /\ full_log e P k2 now L now2 L2 d z /\
  shared (but_claims b) (but_claims c) (but_claims d) /\
  is_pool e L1 P v /\ is_pool e L2 P w /\ is_mining e L1 k1 m /\ is_mining e L2 k1 n /\ is_mining e L2 k2 o /\
  x + tokens_at ts (wp_ci v) m + 15 <= (y + tokens_at ts (wp_ci w) n) + (z + tokens_at ts (wp_ci w) o).
Proof.
  destruct (three_logs (a_crumb false true) (a_crumb true false) (at_noon 195) (at_noon 122, 19, 19) (at_noon 122, 0, 17) (at_noon 122, 0, 17)
    (fun b c d => shared (but_claims b) (but_claims c) (but_claims d)))
    as (now1 & L1 & now2 & L2 & b & c & d & x & y & z & v & w & m & n & o & R & D1 & D2 & D3 & S & V & W & M & N & O & E1 & E2 & E3);
    [exact crumbs_but_claims|vm_compute; reflexivity|vm_compute; reflexivity|vm_compute; reflexivity|].
  set (L0 := ledger_after three) in *. set (k := mining_of ALICE POOL) in *. set (k2 := mining_of BOB POOL) in *. set (t0 := at_noon 100) in *. set (t1 := at_noon 195) in *. clearbody L0 k k2 t0 t1.
  injection E1 as _ _ E1. injection E2 as _ _ E2. injection E3 as _ _ E3.
  exists env0, POOL, k, k2, t0, L0, now1, L1, now2, L2, b, c, d, x, y, z, v, w, m, n, o, t1. split; [exact env0_ok|].
  repeat (split; [eassumption|]). lia.
Qed.
Print Assumptions C92_claims_refuted.
