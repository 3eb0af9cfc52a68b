(** C91: while stakes stand still, everybody gets their part of what is handed out, on whichever days it is. *)
From stdpp Require Import gmap.
From Verif Require Import Base OMap State Spec EffectSpec SuccessSpec Ledger Program Clients LedgerLemmas LedgerSpec
  CodecLemmas History Scenario Attacks HistoryThms ReachThms FreezeSpec PropsFreeze CapSpec IncomeSpec DiarySpec Diary PropsDiary LogSpec Log PropsLog
  CompareSpec Compare PropsCompare LongerSpec Longer PropsLonger OwnSpec Own PropsOwn OftenSpec Often PropsOften DaysSpec Days.

(** In a log there are only fillings of the vault, distributions, and claims of the mining; no lockup ends
    until [ts]; the history of the pool has room for the distributions.  Then what was paid and can be
    claimed is the mining's part, by its weighted stake, of all that was handed out, with what it was owed
    before.  Never more; less only by the rounding: under one token for each claim and the last one, and the
    stake's part of 10^-16 for each distribution.  (All multiplied by the pool's stake and by 10^16.) *)
Theorem C91_part : forall e, env_ok e -> forall P k now L now' L' b x v m v' m' ts,
  reached e now L -> full_log e P k now L now' L' b x -> Forall still b ->
  is_pool e L P v -> is_mining e L k m -> is_pool e L' P v' -> is_mining e L' k m' ->
  now' <= ts -> day_start ts < ts -> lasting ts (wp_diffs v) -> lasting ts (wm_diffs m) ->
  0 < p_total (wp v) -> m_index (wm m) <= last_from 0 (wp_ci v) ->
  Z.of_nat (length (wp_ci v)) + how_many distributes b <= 1095 ->
  let s := m_share (wm m) + m_sfo (wm m) in
  let T := p_total (wp v) in
  let fair := T * owed (wp_ci v) m + 10000000000000000 * (s * handed_out v b v') in
  let got := T * (10000000000000000 * (x + tokens_at ts (wp_ci v') m')) in
  fair - T * (s * how_many distributes b + (10000000000000000 - 1) * (how_many claims b + 1)) <= got <= fair.
Proof. exact pro_rata. Qed.
Print Assumptions C91_part.
(** Two such histories that begin alike and hand out as much in all, on whichever days and in whichever
    pieces: what was paid and can be claimed differs by no more than the rounding. *)
Theorem C91_days : forall e1 e2, env_ok e1 -> env_ok e2 -> forall P1 P2 k1 k2 now1 L1 now1' L1' now2 L2 now2' L2' b c x y v w v' w' m n m' n' ts,
  reached e1 now1 L1 -> reached e2 now2 L2 ->
  full_log e1 P1 k1 now1 L1 now1' L1' b x -> full_log e2 P2 k2 now2 L2 now2' L2' c y -> Forall still b -> Forall still c ->
  is_pool e1 L1 P1 v -> is_pool e2 L2 P2 w -> pools_alike v w -> is_mining e1 L1 k1 m -> is_mining e2 L2 k2 n -> alike m n ->
  is_pool e1 L1' P1 v' -> is_pool e2 L2' P2 w' -> is_mining e1 L1' k1 m' -> is_mining e2 L2' k2 n' ->
  handed_out v b v' = handed_out w c w' ->
  now1' <= ts -> now2' <= ts -> day_start ts < ts -> lasting ts (wp_diffs v) -> lasting ts (wm_diffs m) ->
  0 < p_total (wp v) -> m_index (wm m) <= last_from 0 (wp_ci v) ->
  Z.of_nat (length (wp_ci v)) + how_many distributes b <= 1095 -> Z.of_nat (length (wp_ci v)) + how_many distributes c <= 1095 ->
  y + tokens_at ts (wp_ci w') n' <=
    x + tokens_at ts (wp_ci v') m' + how_many claims b + 1 + (m_share (wm m) + m_sfo (wm m)) * how_many distributes b / 10000000000000000.
Proof. exact other_days. Qed.
Print Assumptions C91_days.

(** ** ALICE has staked 70 for three months, BOB 53 for six.  1000 tokens are to be handed out by day 106. *)
Definition staked : list call :=
  let k := mining_of ALICE POOL in let j := mining_of BOB POOL in
  two_pools ++ [(at_noon 101, b_deposit POOL k AUTH k 70 L3M ALICE ALICE); (at_noon 101, b_deposit POOL j AUTH j 53 L6M BOB BOB)].
Definition a_plan (days paydays : list Z) (until : Z) (more : list call) : list call :=
  [(at_noon 102, b_fill_vault env0 POOL MINT (vault_of POOL) FILLER SOURCE 1000 (at_noon until))] ++ 
  flat_map (fun d => (if d =? 107 then more else []) ++
    (if existsb (Z.eqb d) days then [(at_noon d, b_distribute POOL DISTR)] else []) ++
    (if existsb (Z.eqb d) paydays then [(at_noon d, b_claim env0 POOL MINT (vault_of POOL) (mining_of ALICE POOL) ALICE AUTH ALICE_T)] else []))
    [103; 104; 105; 106; 107; 108; 109; 190; 192].
Definition plan (days paydays : list Z) (until : Z) (more : list call) :=
  write_log POOL (mining_of ALICE POOL) (at_noon 101) (ledger_after staked) (a_plan days paydays until more).
(** claims, distributions, tokens handed out, and what ALICE has and can claim *)
Definition in_days (h : option (Z * ledger * list full_entry * Z)) (ts : Z) : option (Z * Z * Z * Z * Z) :=
  match h with
  | Some (now, L, b, x) =>
      match pool_at (ledger_after staked) POOL, pool_at L POOL, mining_at L (mining_of ALICE POOL) with
      | Some u, Some v, Some m => Some (now, how_many claims b, how_many distributes b, handed_out u b v, x + tokens_at ts (wp_ci v) m) | _, _, _ => None end
  | None => None
  end.
Definition every_day : list Z := [103; 104; 105; 106; 107].
Lemma still_often : Forall still (entries (plan every_day every_day 106 [])).
Proof. written (entries (plan every_day every_day 106 [])). repeat (constructor; [exact I|]). constructor. Qed.
Lemma still_once d : In d [107; 190; 192] -> Forall still (entries (plan [d] [] 106 [])).
Proof.
  intros [<-|[<-|[<-|[]]]]; [written (entries (plan [107] [] 106 []))|written (entries (plan [190] [] 106 []))|written (entries (plan [192] [] 106 []))];
    repeat (constructor; [exact I|]); constructor.
Qed.
Lemma at_start : match pool_at (ledger_after staked) POOL, mining_at (ledger_after staked) (mining_of ALICE POOL) with
  | Some v, Some m => is_pool env0 (ledger_after staked) POOL v /\ is_mining env0 (ledger_after staked) (mining_of ALICE POOL) m /\
      wp_ci v = [] /\ p_total (wp v) = 352 /\ m_share (wm m) = 140 /\ m_sfo (wm m) = 0 /\ m_unclaimed (wm m) = 0 /\ m_index (wm m) = 0 /\
      map fst (wp_diffs v) = [day_start (at_noon 191); day_start (at_noon 281)] /\ map fst (wm_diffs m) = [day_start (at_noon 191)]
  | _, _ => False end.
Proof. vm_compute. repeat split. Qed.
(** a distribution and a claim on every day, one distribution the day after, or one weeks later *)
Example C91_example :
  plays staked (at_noon 101) = true /\ Forall still (entries (plan every_day every_day 106 [])) /\
  Forall still (entries (plan [107] [] 106 [])) /\ Forall still (entries (plan [190] [] 106 [])) /\
  in_days (plan every_day every_day 106 []) (at_noon 190) = Some (at_noon 107, 5, 5, 1000, 396) /\
  in_days (plan every_day [] 106 []) (at_noon 190) = Some (at_noon 107, 0, 5, 1000, 397) /\
  in_days (plan [107] [] 106 []) (at_noon 190) = Some (at_noon 107, 0, 1, 1000, 397) /\
  in_days (plan [190] [] 106 []) (at_noon 190) = Some (at_noon 190, 0, 1, 1000, 397) /\ 140 * 1000 / 352 = 397.
Proof.
  split; [vm_compute; reflexivity|]. split; [exact still_often|]. split; [exact (still_once 107 ltac:(cbn; auto))|]. split; [exact (still_once 190 ltac:(cbn; auto))|].
  vm_compute. repeat split.
Qed.

(** the states at the ends of two logs that can be written *)
Lemma two_plans p q t f1 f2 (Q : full_entry -> Prop) :
  Forall Q (entries (write_log POOL (mining_of ALICE POOL) (at_noon 101) (ledger_after staked) p)) ->
  Forall Q (entries (write_log POOL (mining_of ALICE POOL) (at_noon 101) (ledger_after staked) q)) ->
  in_days (write_log POOL (mining_of ALICE POOL) (at_noon 101) (ledger_after staked) p) t = Some f1 ->
  in_days (write_log POOL (mining_of ALICE POOL) (at_noon 101) (ledger_after staked) q) t = Some f2 ->
  exists now1 L1 now2 L2 b c x y u o v w m n,
    reached env0 (at_noon 101) (ledger_after staked) /\
    full_log env0 POOL (mining_of ALICE POOL) (at_noon 101) (ledger_after staked) now1 L1 b x /\
    full_log env0 POOL (mining_of ALICE POOL) (at_noon 101) (ledger_after staked) now2 L2 c y /\
    Forall Q b /\ Forall Q c /\
    is_pool env0 (ledger_after staked) POOL u /\ is_mining env0 (ledger_after staked) (mining_of ALICE POOL) o /\
    is_pool env0 L1 POOL v /\ is_pool env0 L2 POOL w /\ is_mining env0 L1 (mining_of ALICE POOL) m /\ is_mining env0 L2 (mining_of ALICE POOL) n /\
    f1 = (now1, how_many claims b, how_many distributes b, handed_out u b v, x + tokens_at t (wp_ci v) m) /\
    f2 = (now2, how_many claims c, how_many distributes c, handed_out u c w, y + tokens_at t (wp_ci w) n) /\
    wp_ci u = [] /\ p_total (wp u) = 352 /\ m_share (wm o) = 140 /\ m_sfo (wm o) = 0 /\ m_unclaimed (wm o) = 0 /\ m_index (wm o) = 0 /\
    map fst (wp_diffs u) = [day_start (at_noon 191); day_start (at_noon 281)] /\ map fst (wm_diffs o) = [day_start (at_noon 191)].
Proof.
  intros F1 F2 I1 I2.
  assert (R : reached env0 (at_noon 101) (ledger_after staked)) by (apply plays_reached; vm_compute; reflexivity).
  pose proof at_start as A. unfold in_days, entries in *.
  set (L0 := ledger_after staked) in *. set (k := mining_of ALICE POOL) in *. set (t0 := at_noon 101) in *. clearbody L0 k t0.
  destruct (pool_at L0 POOL) as [u|]; [|contradiction]. destruct (mining_at L0 k) as [o|]; [|contradiction]. destruct A as (U & O & A).
  destruct (write_log POOL k t0 L0 p) as [[[[n1 L1] b] x]|] eqn:E1; [|discriminate].
  destruct (write_log POOL k t0 L0 q) as [[[[n2 L2] c] y]|] eqn:E2; [|discriminate].
  apply write_log_ok in E1, E2.
  destruct (full_log_end_pool _ _ _ _ _ _ _ _ _ E1) as (v & Hv & _). destruct (full_log_end_pool _ _ _ _ _ _ _ _ _ E2) as (w & Hw & _).
  destruct (full_log_end _ _ _ _ _ _ _ _ _ E1) as (m & Hm & _). destruct (full_log_end _ _ _ _ _ _ _ _ _ E2) as (n & Hn & _).
  unfold mining_at, pool_at in I1, I2. rewrite (proj2 Hm), (proj2 Hv) in I1. rewrite (proj2 Hn), (proj2 Hw) in I2.
  injection I1 as <-. injection I2 as <-.
  exists n1, L1, n2, L2, b, c, x, y, u, o, v, w, m, n. repeat (split; [eassumption|]). split; [reflexivity|]. split; [reflexivity|]. exact A.
Qed.

(** ** What does not hold *)
(** A lockup may not end in between: when it does, the day of the distribution decides. *)
Theorem C91_expiry_refuted : exists e P k now L now1 L1 now2 L2 b c x y u o v w m n ts,
  env_ok e /\ reached e now L /\ full_log e P k now L now1 L1 b x /\ full_log e P k now L now2 L2 c y /\
  Forall still b /\ Forall still c /\ is_pool e L P u /\ is_mining e L k o /\
  is_pool e L1 P v /\ is_pool e L2 P w /\ is_mining e L1 k m /\ is_mining e L2 k n /\ handed_out u b v = handed_out u c w /\
  now1 <= ts /\ now2 <= ts /\ day_start ts < ts /\ 0 < p_total (wp u) /\ m_index (wm o) <= last_from 0 (wp_ci u) /\
  how_many claims b = 0 /\ how_many distributes b = 1 /\ how_many distributes c = 1 /\
  x + tokens_at ts (wp_ci v) m + 149 <= y + tokens_at ts (wp_ci w) n.
Proof.
  destruct (two_plans (a_plan [192] [] 106 []) (a_plan [190] [] 106 []) (at_noon 195) (at_noon 192, 0, 1, 1000, 248) (at_noon 190, 0, 1, 1000, 397) still)
    as (now1 & L1 & now2 & L2 & b & c & x & y & u & o & v & w & m & n & R & D1 & D2 & S1 & S2 & U & O & V & W & M & N & E1 & E2 & C & T & _ & _ & _ & I & _);
    [exact (still_once 192 ltac:(cbn; auto))|exact (still_once 190 ltac:(cbn; auto))|vm_compute; reflexivity|vm_compute; reflexivity|].
  assert (T1 : at_noon 192 <= at_noon 195) by (vm_compute; discriminate). assert (T2 : at_noon 190 <= at_noon 195) by (vm_compute; discriminate).
  assert (T3 : day_start (at_noon 195) < at_noon 195) by (vm_compute; reflexivity).
  set (L0 := ledger_after staked) in *. set (k := mining_of ALICE POOL) in *. set (t0 := at_noon 101) in *. set (t1 := at_noon 195) in *. set (t2 := at_noon 192) in *. set (t3 := at_noon 190) in *. clearbody L0 k t0 t1 t2 t3.
  injection E1 as Ea1 Eb1 Ec1 Ed1 Ee1. injection E2 as Ea2 Eb2 Ec2 Ed2 Ee2.
  exists env0, POOL, k, t0, L0, now1, L1, now2, L2, b, c, x, y, u, o, v, w, m, n, t1. split; [exact env0_ok|]. repeat (split; [first [eassumption|symmetry; eassumption]|]).
  split; [congruence|]. split; [congruence|]. split; [congruence|]. split; [assumption|]. split; [rewrite T; lia|]. split; [rewrite C, I; cbn [last_from]; lia|].
  repeat (split; [symmetry; eassumption|]). lia.
Qed.
Print Assumptions C91_expiry_refuted.

(** ** On day 107 BOB stakes 353 more, before or after the distribution *)
Definition bobs_more : call := (at_noon 107, b_deposit POOL (mining_of BOB POOL) AUTH (mining_of BOB POOL) 353 LFlex BOB BOB).
Lemma stirred d : In d [106; 107] -> Forall stirring (entries (plan [d] [] 106 [bobs_more])).
Proof.
  intros [<-|[<-|[]]]; [written (entries (plan [106] [] 106 [bobs_more]))|written (entries (plan [107] [] 106 [bobs_more]))];
    repeat (constructor; [left; reflexivity|]); constructor.
Qed.
(** Nobody else's stake may change in between, even when nothing happens to the mining itself. *)
Theorem C91_others_refuted : exists e P k now L now1 L1 now2 L2 b c x y u o v w m n ts,
  env_ok e /\ reached e now L /\ full_log e P k now L now1 L1 b x /\ full_log e P k now L now2 L2 c y /\
  Forall stirring b /\ Forall stirring c /\ is_pool e L P u /\ is_mining e L k o /\
  is_pool e L1 P v /\ is_pool e L2 P w /\ is_mining e L1 k m /\ is_mining e L2 k n /\ handed_out u b v = handed_out u c w /\
  now1 <= ts /\ now2 <= ts /\ day_start ts < ts /\ 0 < p_total (wp u) /\ m_index (wm o) <= last_from 0 (wp_ci u) /\
  lasting ts (wp_diffs u) /\ lasting ts (wm_diffs o) /\
  how_many claims b = 0 /\ how_many distributes b = 1 /\ how_many distributes c = 1 /\
  x + tokens_at ts (wp_ci v) m + 199 <= y + tokens_at ts (wp_ci w) n.
Proof.
  destruct (two_plans (a_plan [107] [] 106 [bobs_more]) (a_plan [106] [] 106 [bobs_more]) (at_noon 108) (at_noon 107, 0, 1, 1000, 198) (at_noon 107, 0, 1, 1000, 397) stirring)
    as (now1 & L1 & now2 & L2 & b & c & x & y & u & o & v & w & m & n & R & D1 & D2 & S1 & S2 & U & O & V & W & M & N & E1 & E2 & C & T & _ & _ & _ & I & Q1 & Q2);
    [exact (stirred 107 ltac:(cbn; auto))|exact (stirred 106 ltac:(cbn; auto))|vm_compute; reflexivity|vm_compute; reflexivity|].
  assert (T1 : at_noon 107 <= at_noon 108) by (vm_compute; discriminate).
  assert (T3 : day_start (at_noon 108) < at_noon 108) by (vm_compute; reflexivity).
  assert (LA : lasting (at_noon 108) (wp_diffs u) /\ lasting (at_noon 108) (wm_diffs o)).
  { split; intros d z J; apply (in_map fst) in J; [rewrite Q1 in J|rewrite Q2 in J]; cbn [fst In] in J; vm_compute day_start in *; intuition lia. }
  destruct LA as [LA1 LA2].
  set (L0 := ledger_after staked) in *. set (k := mining_of ALICE POOL) in *. set (t0 := at_noon 101) in *. set (t1 := at_noon 108) in *. set (t2 := at_noon 107) in *. clearbody L0 k t0 t1 t2.
  injection E1 as Ea1 Eb1 Ec1 Ed1 Ee1. injection E2 as Ea2 Eb2 Ec2 Ed2 Ee2.
  exists env0, POOL, k, t0, L0, now1, L1, now2, L2, b, c, x, y, u, o, v, w, m, n, t1. split; [exact env0_ok|]. repeat (split; [first [eassumption|symmetry; eassumption]|]).
  split; [congruence|]. split; [congruence|]. split; [congruence|]. split; [assumption|]. split; [rewrite T; lia|]. split; [rewrite C, I; cbn [last_from]; lia|].
  split; [assumption|]. split; [assumption|]. repeat (split; [symmetry; eassumption|]). lia.
Qed.
Print Assumptions C91_others_refuted.
