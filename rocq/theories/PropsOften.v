(** C90: when and how often a staker claims makes no difference but for rounding. *)
From stdpp Require Import gmap.
From Verif Require Import Base OMap State Spec EffectSpec SuccessSpec Ledger Program Clients LedgerLemmas LedgerSpec
  CodecLemmas History Scenario Attacks HistoryThms ReachThms FreezeSpec PropsFreeze CapSpec IncomeSpec DiarySpec Diary PropsDiary LogSpec Log PropsLog
  CompareSpec Compare PropsCompare LongerSpec Longer PropsLonger OwnSpec Own PropsOwn OftenSpec Often.

(** Two histories, and a mining in each, that begin alike.  Their logs are the same but for the claims of
    the mining, which may come at any times.  The mining is nobody else's delegate and its rewards are not
    decreased.  Then at any later time what was paid and can be claimed is the same in both, up to one token
    for every claim in the history that comes out lower. *)
Theorem C90_claims : forall e1 e2, env_ok e1 -> env_ok e2 ->
  forall P1 P2 k1 k2 now1 L1 now1' L1' now2 L2 now2' L2' b c x y v w v' w' m n m' n' ts,
  reached e1 now1 L1 -> reached e2 now2 L2 ->
  full_log e1 P1 k1 now1 L1 now1' L1' b x -> full_log e2 P2 k2 now2 L2 now2' L2' c y ->
  but_claims b = but_claims c -> Forall own_or_none b ->
  is_pool e1 L1 P1 v -> is_pool e2 L2 P2 w -> pools_alike v w -> is_mining e1 L1 k1 m -> is_mining e2 L2 k2 n -> alike m n ->
  is_pool e1 L1' P1 v' -> is_pool e2 L2' P2 w' -> is_mining e1 L1' k1 m' -> is_mining e2 L2' k2 n' ->
  now1' <= ts -> now2' <= ts ->
  x + tokens_at ts (wp_ci v') m' <= y + tokens_at ts (wp_ci w') n' + how_many claims c /\
  y + tokens_at ts (wp_ci w') n' <= x + tokens_at ts (wp_ci v') m' + how_many claims b.
Proof. exact often. Qed.
Print Assumptions C90_claims.
(** The same for the totals paid when both histories end with a claim at the same time. *)
Theorem C90_settled : forall e1 e2, env_ok e1 -> env_ok e2 ->
  forall P1 P2 k1 k2 now1 L1 now1' L1' now2 L2 now2' L2' b c x y v w m n ts ms1 M1 a1 ms2 M2 a2,
  reached e1 now1 L1 -> reached e2 now2 L2 ->
  full_log e1 P1 k1 now1 L1 now1' L1' b x -> full_log e2 P2 k2 now2 L2 now2' L2' c y ->
  but_claims b = but_claims c -> Forall own_or_none b ->
  is_pool e1 L1 P1 v -> is_pool e2 L2 P2 w -> pools_alike v w -> is_mining e1 L1 k1 m -> is_mining e2 L2 k2 n -> alike m n ->
  now1' <= ts -> now2' <= ts ->
  exec e1 ts ms1 Claim L1' = Ok (M1, Some a1) -> account_at ms1 0 P1 -> account_at ms1 3 k1 ->
  exec e2 ts ms2 Claim L2' = Ok (M2, Some a2) -> account_at ms2 0 P2 -> account_at ms2 3 k2 ->
  x + a1 <= y + a2 + how_many claims c /\ y + a2 <= x + a1 + how_many claims b.
Proof. exact often_settled. Qed.
Print Assumptions C90_settled.

(** ** ALICE stakes 70 for three months and 30 without a lockup, BOB 53 for six months.  ALICE claims on
    the days [l] of those listed, before or after the expiry of the lockup on day 191. *)
Definition at_times (l : list Z) (d : Z) : list call :=
  if existsb (Z.eqb d) l then [(at_noon d, b_claim env0 POOL MINT (vault_of POOL) (mining_of ALICE POOL) ALICE AUTH ALICE_T)] else [].
Definition a_habit (l : list Z) : list call :=
  let k := mining_of ALICE POOL in let j := mining_of BOB POOL in
  [(at_noon 101, b_deposit POOL k AUTH k 70 L3M ALICE ALICE);
   (at_noon 101, b_deposit POOL j AUTH j 53 L6M BOB BOB);
   (at_noon 102, b_fill_vault env0 POOL MINT (vault_of POOL) FILLER SOURCE 1000 (at_noon 106));
   (at_noon 103, b_distribute POOL DISTR)] ++ at_times l 103 ++
  [(at_noon 104, b_distribute POOL DISTR)] ++ at_times l 104 ++
  [(at_noon 104, b_deposit POOL k AUTH k 30 LFlex ALICE ALICE);
   (at_noon 105, b_distribute POOL DISTR)] ++ at_times l 105 ++ at_times l 150 ++
  [(at_noon 189, b_fill_vault env0 POOL MINT (vault_of POOL) FILLER SOURCE 700 (at_noon 193));
   (at_noon 190, b_distribute POOL DISTR)] ++ at_times l 190 ++
  [(at_noon 191, b_distribute POOL DISTR)] ++ at_times l 191 ++
  [(at_noon 191, b_withdraw POOL k AUTH k 11 ALICE ALICE);
   (at_noon 192, b_distribute POOL DISTR)] ++ at_times l 192.
Definition habit (l : list Z) := write_log POOL (mining_of ALICE POOL) (at_noon 100) (ledger_after two_pools) (a_habit l).
Definition in_all (h : option (Z * ledger * list full_entry * Z)) (ts : Z) : option (Z * Z * Z * Z) :=
  match h with
  | Some (now, L, b, x) =>
      match pool_at L POOL, mining_at L (mining_of ALICE POOL) with
      | Some v, Some m => Some (now, how_many claims b, x, x + tokens_at ts (wp_ci v) m) | _, _ => None end
  | None => None
  end.
Lemma habits_own : Forall own_or_none (entries (habit [103; 104; 105; 150; 190; 191; 192])).
Proof. written (entries (habit [103; 104; 105; 150; 190; 191; 192])). repeat (constructor; [vm_compute; auto|]). constructor. Qed.
Example C90_example :
  let l := [103; 104; 105; 150; 190; 191; 192] in
  but_claims (entries (habit l)) = but_claims (entries (habit [])) /\ but_claims (entries (habit l)) = but_claims (entries (habit [104; 191])) /\
  Forall own_or_none (entries (habit l)) /\ length (but_claims (entries (habit l))) = 12%nat /\
  in_all (habit l) (at_noon 195) = Some (at_noon 192, 7, 663, 663) /\
  in_all (habit []) (at_noon 195) = Some (at_noon 192, 0, 0, 664) /\
  in_all (habit [104; 191]) (at_noon 195) = Some (at_noon 192, 2, 664, 664).
Proof. split; [|split; [|split; [exact habits_own|]]]; vm_compute; repeat split. Qed.

(** the states at the ends of two logs that can be written *)
Lemma two_habits p q t f1 f2 (Q : full_entry -> Prop) :
  Forall Q (entries (write_log POOL (mining_of ALICE POOL) (at_noon 100) (ledger_after two_pools) p)) ->
  but_claims (entries (write_log POOL (mining_of ALICE POOL) (at_noon 100) (ledger_after two_pools) p)) =
    but_claims (entries (write_log POOL (mining_of ALICE POOL) (at_noon 100) (ledger_after two_pools) q)) ->
  in_all (write_log POOL (mining_of ALICE POOL) (at_noon 100) (ledger_after two_pools) p) t = Some f1 ->
  in_all (write_log POOL (mining_of ALICE POOL) (at_noon 100) (ledger_after two_pools) q) t = Some f2 ->
  exists now1 L1 now2 L2 b c x y v w m n,
    reached env0 (at_noon 100) (ledger_after two_pools) /\
    full_log env0 POOL (mining_of ALICE POOL) (at_noon 100) (ledger_after two_pools) now1 L1 b x /\
    full_log env0 POOL (mining_of ALICE POOL) (at_noon 100) (ledger_after two_pools) now2 L2 c y /\
    but_claims b = but_claims c /\ Forall Q b /\
    is_pool env0 L1 POOL v /\ is_pool env0 L2 POOL w /\ is_mining env0 L1 (mining_of ALICE POOL) m /\ is_mining env0 L2 (mining_of ALICE POOL) n /\
    f1 = (now1, how_many claims b, x, x + tokens_at t (wp_ci v) m) /\ f2 = (now2, how_many claims c, y, y + tokens_at t (wp_ci w) n).
Proof.
  intros F B I1 I2.
  assert (R : reached env0 (at_noon 100) (ledger_after two_pools)) by (apply plays_reached; vm_compute; reflexivity).
  unfold in_all, entries in *.
  set (L0 := ledger_after two_pools) in *. set (k := mining_of ALICE POOL) in *. set (t0 := at_noon 100) in *. clearbody L0 k t0.
  destruct (write_log POOL k t0 L0 p) as [[[[n1 L1] b] x]|] eqn:E1; [|discriminate].
  destruct (write_log POOL k t0 L0 q) as [[[[n2 L2] c] y]|] eqn:E2; [|discriminate].
  apply write_log_ok in E1, E2.
  destruct (full_log_end_pool _ _ _ _ _ _ _ _ _ E1) as (v & Hv & _). destruct (full_log_end_pool _ _ _ _ _ _ _ _ _ E2) as (w & Hw & _).
  destruct (full_log_end _ _ _ _ _ _ _ _ _ E1) as (m & Hm & _). destruct (full_log_end _ _ _ _ _ _ _ _ _ E2) as (n & Hn & _).
  unfold mining_at, pool_at in I1, I2. rewrite (proj2 Hm), (proj2 Hv) in I1. rewrite (proj2 Hn), (proj2 Hw) in I2.
  injection I1 as <-. injection I2 as <-.
  exists n1, L1, n2, L2, b, c, x, y, v, w, m, n. repeat (split; [eassumption|]). split; reflexivity.
Qed.

(** ** ALICE stakes 1 and BOB 99; 99 tokens are distributed on each of 20 days, after which ALICE claims or does not *)
Definition a_pittance (eager : bool) : list call :=
  let k := mining_of ALICE POOL in let j := mining_of BOB POOL in
  [(at_noon 101, b_deposit POOL k AUTH k 1 LFlex ALICE ALICE);
   (at_noon 101, b_deposit POOL j AUTH j 99 LFlex BOB BOB);
   (at_noon 102, b_fill_vault env0 POOL MINT (vault_of POOL) FILLER SOURCE 1881 (at_noon 123))] ++
  flat_map (fun n => (at_noon (103 + Z.of_nat n), b_distribute POOL DISTR) ::
    if eager then [(at_noon (103 + Z.of_nat n), b_claim env0 POOL MINT (vault_of POOL) k ALICE AUTH ALICE_T)] else []) (seq 0 20).
Definition pittance (eager : bool) := write_log POOL (mining_of ALICE POOL) (at_noon 100) (ledger_after two_pools) (a_pittance eager).
Lemma pittances_own : Forall own_or_none (entries (pittance true)).
Proof. written (entries (pittance true)). repeat (constructor; [vm_compute; auto|]). constructor. Qed.
(** The rounding is real: within the hypotheses of [C90_claims], who claims every day gets nothing at all,
    and who waits gets 17 tokens. *)
Theorem C90_nothing : exists now1 L1 now2 L2 b c x y v w m n,
  reached env0 (at_noon 100) (ledger_after two_pools) /\
  full_log env0 POOL (mining_of ALICE POOL) (at_noon 100) (ledger_after two_pools) now1 L1 b x /\
  full_log env0 POOL (mining_of ALICE POOL) (at_noon 100) (ledger_after two_pools) now2 L2 c y /\
  but_claims b = but_claims c /\ Forall own_or_none b /\
  is_pool env0 L1 POOL v /\ is_pool env0 L2 POOL w /\ is_mining env0 L1 (mining_of ALICE POOL) m /\ is_mining env0 L2 (mining_of ALICE POOL) n /\
  how_many claims b = 20 /\ how_many claims c = 0 /\
  x + tokens_at (at_noon 195) (wp_ci v) m = 0 /\ y + tokens_at (at_noon 195) (wp_ci w) n = 17.
Proof.
  destruct (two_habits (a_pittance true) (a_pittance false) (at_noon 195) (at_noon 122, 20, 0, 0) (at_noon 122, 0, 0, 17) own_or_none)
    as (now1 & L1 & now2 & L2 & b & c & x & y & v & w & m & n & R & D1 & D2 & BC & O & V & W & M & N & E1 & E2);
    [exact pittances_own|vm_compute; reflexivity|vm_compute; reflexivity|vm_compute; reflexivity|].
  set (L0 := ledger_after two_pools) in *. set (k := mining_of ALICE POOL) in *. set (t0 := at_noon 100) in *. set (t1 := at_noon 195) in *. clearbody L0 k t0 t1.
  injection E1 as _ A1 _ E1. injection E2 as _ A2 _ E2.
  exists now1, L1, now2, L2, b, c, x, y, v, w, m, n. repeat (split; [first [eassumption|symmetry; eassumption]|]). symmetry. exact E2.
Qed.
Print Assumptions C90_nothing.

(** ** What does not hold *)
(** ** BOB stakes with ALICE as delegate after the distributions, or ALICE's rewards are decreased *)
Definition a_surprise (eager : bool) (i : call) : list call :=
  let k := mining_of ALICE POOL in let j := mining_of BOB POOL in
  [(at_noon 101, b_deposit POOL k AUTH k 100 LFlex ALICE ALICE);
   (at_noon 102, b_fill_vault env0 POOL MINT (vault_of POOL) FILLER SOURCE 1000 (at_noon 104));
   (at_noon 103, b_distribute POOL DISTR)] ++ 
  (if eager then [(at_noon 103, b_claim env0 POOL MINT (vault_of POOL) k ALICE AUTH ALICE_T)] else []) ++ [i].
Definition surprise (eager : bool) (i : call) := write_log POOL (mining_of ALICE POOL) (at_noon 100) (ledger_after two_pools) (a_surprise eager i).
Definition new_friend : call := (at_noon 104, b_deposit POOL (mining_of BOB POOL) AUTH (mining_of ALICE POOL) 60 LFlex BOB ALICE).
Definition penalty : call := (at_noon 104, b_decrease AUTH POOL (mining_of ALICE POOL) ALICE 40).
Lemma penalties_own : Forall own_or_penalty (entries (surprise true penalty)).
Proof. written (entries (surprise true penalty)). repeat (constructor; [vm_compute; auto|]). constructor. Qed.
Lemma friends_own : Forall own_or_delegate (entries (surprise false new_friend)).
Proof. written (entries (surprise false new_friend)). repeat (constructor; [vm_compute; auto|]). constructor. Qed.
(** A decrease of rewards takes what has not been claimed yet: claiming before saves 400 tokens. *)
Theorem C90_penalty_refuted : exists e P k now L now1 L1 now2 L2 b c x y v w m n ts,
  env_ok e /\ reached e now L /\ full_log e P k now L now1 L1 b x /\ full_log e P k now L now2 L2 c y /\
  but_claims b = but_claims c /\ Forall own_or_penalty b /\
  is_pool e L1 P v /\ is_pool e L2 P w /\ is_mining e L1 k m /\ is_mining e L2 k n /\ now1 <= ts /\ now2 <= ts /\
  how_many claims c = 0 /\ y + tokens_at ts (wp_ci w) n + 400 <= x + tokens_at ts (wp_ci v) m.
Proof.
  destruct (two_habits (a_surprise true penalty) (a_surprise false penalty) (at_noon 195) (at_noon 104, 1, 1000, 1000) (at_noon 104, 0, 0, 600) own_or_penalty)
    as (now1 & L1 & now2 & L2 & b & c & x & y & v & w & m & n & R & D1 & D2 & BC & O & V & W & M & N & E1 & E2);
    [exact penalties_own|vm_compute; reflexivity|vm_compute; reflexivity|vm_compute; reflexivity|].
  assert (T : at_noon 104 <= at_noon 195) by (vm_compute; discriminate).
  set (L0 := ledger_after two_pools) in *. set (k := mining_of ALICE POOL) in *. set (t0 := at_noon 100) in *. set (t1 := at_noon 195) in *. set (t2 := at_noon 104) in *. clearbody L0 k t0 t1 t2.
  injection E1 as <- _ _ E1. injection E2 as <- E _ E2.
  exists env0, POOL, k, t0, L0, t2, L1, t2, L2, b, c, x, y, v, w, m, n, t1. split; [exact env0_ok|]. repeat (split; [first [eassumption|symmetry; eassumption]|]). lia.
Qed.
Print Assumptions C90_penalty_refuted.
(** Stake delegated to a mining counts for the time since its last claim: not claiming before brings 600 tokens. *)
Theorem C90_delegate_refuted : exists e P k now L now1 L1 now2 L2 b c x y v w m n ts,
  env_ok e /\ reached e now L /\ full_log e P k now L now1 L1 b x /\ full_log e P k now L now2 L2 c y /\
  but_claims b = but_claims c /\ Forall own_or_delegate b /\
  is_pool e L1 P v /\ is_pool e L2 P w /\ is_mining e L1 k m /\ is_mining e L2 k n /\ now1 <= ts /\ now2 <= ts /\
  how_many claims c = 1 /\ y + tokens_at ts (wp_ci w) n + 600 <= x + tokens_at ts (wp_ci v) m.
Proof.
  destruct (two_habits (a_surprise false new_friend) (a_surprise true new_friend) (at_noon 195) (at_noon 104, 0, 0, 1600) (at_noon 104, 1, 1000, 1000) own_or_delegate)
    as (now1 & L1 & now2 & L2 & b & c & x & y & v & w & m & n & R & D1 & D2 & BC & O & V & W & M & N & E1 & E2);
    [exact friends_own|vm_compute; reflexivity|vm_compute; reflexivity|vm_compute; reflexivity|].
  assert (T : at_noon 104 <= at_noon 195) by (vm_compute; discriminate).
  set (L0 := ledger_after two_pools) in *. set (k := mining_of ALICE POOL) in *. set (t0 := at_noon 100) in *. set (t1 := at_noon 195) in *. set (t2 := at_noon 104) in *. clearbody L0 k t0 t1 t2.
  injection E1 as <- _ _ E1. injection E2 as <- E _ E2.
  exists env0, POOL, k, t0, L0, t2, L1, t2, L2, b, c, x, y, v, w, m, n, t1. split; [exact env0_ok|]. repeat (split; [first [eassumption|symmetry; eassumption]|]). lia.
Qed.
Print Assumptions C90_delegate_refuted.
