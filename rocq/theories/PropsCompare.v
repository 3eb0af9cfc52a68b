(** C86: more stake, or less stake of others, never earns less. *)
From stdpp Require Import gmap.
From Verif Require Import Base OMap State Spec EffectSpec Ledger Program Clients LedgerLemmas LedgerSpec
  CodecLemmas History Scenario Attacks HistoryThms ReachThms FreezeSpec PropsFreeze CapSpec IncomeSpec DiarySpec Diary PropsDiary LogSpec Log PropsLog CompareSpec Compare.

(** Two histories, and a mining in each: the calls on it come at the same times and bring no less
    stake in the first, the distributions are on the same days and raise the first pool's index by
    no less.  Then no less is paid and left to claim, and no less stake counts at any date. *)
Theorem C86_mining : forall e1 e2, env_ok e1 -> env_ok e2 -> forall P1 P2 k1 k2 now1 L1 now1' L1' now2 L2 now2' L2' b c x y v w v' w' m n m' n',
  reached e1 now1 L1 -> reached e2 now2 L2 ->
  full_log e1 P1 k1 now1 L1 now1' L1' b x -> full_log e2 P2 k2 now2 L2 now2' L2' c y -> Forall2 better b c ->
  is_pool e1 L1 P1 v -> is_pool e2 L2 P2 w -> map fst (wp_ci v) = map fst (wp_ci w) ->
  is_mining e1 L1 k1 m -> is_mining e2 L2 k2 n -> not_less m n ->
  is_pool e1 L1' P1 v' -> is_pool e2 L2' P2 w' -> steeper (wp_ci v') (wp_ci w') ->
  is_mining e1 L1' k1 m' -> is_mining e2 L2' k2 n' ->
  y + m_unclaimed (wm n') <= x + m_unclaimed (wm m') /\ forall d, eff n' d <= eff m' d.
Proof. exact more_stake. Qed.
Print Assumptions C86_mining.

(** Less stake and a larger budget in a pool: its index rises by no less in every distribution. *)
Theorem C86_pool : forall e1 e2, env_ok e1 -> env_ok e2 -> forall P1 P2 now1 L1 now1' L1' now2 L2 now2' L2' b c v w v' w',
  reached e1 now1 L1 -> reached e2 now2 L2 ->
  pool_log e1 P1 now1 L1 now1' L1' b -> pool_log e2 P2 now2 L2 now2' L2' c -> Forall2 lighter b c ->
  is_pool e1 L1 P1 v -> is_pool e2 L2 P2 w -> under v w ->
  is_pool e1 L1' P1 v' -> is_pool e2 L2' P2 w' -> under v' w'.
Proof. exact less_stake. Qed.
Print Assumptions C86_pool.

(** Both: a mining whose own calls are no worse, in a pool where others stake less, or the budget is
    larger, gets no less. *)
Theorem C86_dilution : forall e1 e2, env_ok e1 -> env_ok e2 -> forall P1 P2 k1 k2 now1 L1 now1' L1' now2 L2 now2' L2' b c x y v w m n m' n',
  reached e1 now1 L1 -> reached e2 now2 L2 ->
  full_log e1 P1 k1 now1 L1 now1' L1' b x -> full_log e2 P2 k2 now2 L2 now2' L2' c y ->
  Forall2 better b c -> Forall2 (fun x y => lighter (without_places x) (without_places y)) b c ->
  is_pool e1 L1 P1 v -> is_pool e2 L2 P2 w -> under v w ->
  is_mining e1 L1 k1 m -> is_mining e2 L2 k2 n -> not_less m n ->
  is_mining e1 L1' k1 m' -> is_mining e2 L2' k2 n' ->
  y + m_unclaimed (wm n') <= x + m_unclaimed (wm m') /\ forall d, eff n' d <= eff m' d.
Proof. exact dilution. Qed.
Print Assumptions C86_dilution.
(** The beginnings may be the same. *)
Theorem C86_same_start : (forall m n, alike m n -> not_less m n) /\ (forall v w, pools_alike v w -> under v w).
Proof. split; [exact not_less_refl|exact under_refl]. Qed.
Print Assumptions C86_same_start.

(** ** ALICE stakes [mine] for three months and BOB [a] for six; the budget is [z], BOB is slashed [back],
    and ALICE is fined [cut] *)
Definition a_summer (mine a back z cut : Z) : list call :=
  let k := mining_of ALICE POOL in let j := mining_of BOB POOL in
  [(at_noon 101, b_deposit POOL k AUTH k mine L3M ALICE ALICE);
   (at_noon 101, b_deposit POOL j AUTH j a L6M BOB BOB);
   (at_noon 102, b_fill_vault env0 POOL MINT (vault_of POOL) FILLER SOURCE z (at_noon 104));
   (at_noon 103, b_distribute POOL DISTR);
   (at_noon 103, b_slash AUTH POOL j BOB back back None);
   (at_noon 104, b_decrease AUTH POOL k ALICE cut);
   (at_noon 104, b_distribute POOL DISTR);
   (at_noon 105, b_claim env0 POOL MINT (vault_of POOL) k ALICE AUTH ALICE_T)].
Definition summer (mine a back z cut : Z) := write_log POOL (mining_of ALICE POOL) (at_noon 100) (ledger_after two_pools) (a_summer mine a back z cut).

Ltac compare :=
  repeat match goal with
    | H : ?x = ?x -> False |- _ => destruct (H eq_refl)
    | |- Forall2 _ [] [] => constructor
    | |- Forall2 _ (_ :: _) (_ :: _) => constructor
    | |- True => exact I
    | |- _ /\ _ => split
    | |- _ <-> _ => split
    | |- _ <= _ => discriminate
    | |- _ = _ => reflexivity
    | |- _ -> _ => intros ?; try discriminate
    end.

(** BOB stakes less and is slashed more, the budget is larger, ALICE's fine is smaller: ALICE gets
    more. *)
Example C86_example :
  plays two_pools (at_noon 100) = true /\
  match summer 100 30 25 1000 40, summer 100 50 20 900 60 with
  | Some (_, L, d, x), Some (_, L', c, y) =>
      Forall2 better d c /\ Forall2 (fun x y => lighter (without_places x) (without_places y)) d c /\ length d = 8%nat /\ 0 < y < x
  | _, _ => False end.
Proof. vm_compute. compare. Qed.

(** The total is the same, and more of it ALICE's. *)
Example C86_mining_example :
  match summer 110 45 20 900 60, summer 100 50 20 900 60 with
  | Some (_, L, d, x), Some (_, L', c, y) =>
      Forall2 better d c /\ length d = 8%nat /\ 0 < y < x /\
      (match pool_at L POOL, pool_at L' POOL with Some v, Some w => steeper (wp_ci v) (wp_ci w) /\ length (wp_ci v) = 2%nat | _, _ => False end)
  | _, _ => False end.
Proof. vm_compute. compare. Qed.

(** ** What does not hold *)
(** A larger stake alone, with everything else the same, can get less: the index is rounded, and here
    the one token is lost. *)
Definition a_week (mine : Z) : list call :=
  let k := mining_of ALICE POOL in
  [(at_noon 101, b_deposit POOL k AUTH k mine LFlex ALICE ALICE);
   (at_noon 102, b_fill_vault env0 POOL MINT (vault_of POOL) FILLER SOURCE 1 (at_noon 103));
   (at_noon 103, b_distribute POOL DISTR);
   (at_noon 105, b_claim env0 POOL MINT (vault_of POOL) k ALICE AUTH ALICE_T)].
Definition week (mine : Z) := write_log POOL (mining_of ALICE POOL) (at_noon 100) (ledger_after two_pools) (a_week mine).
Lemma weeks : match week 3, week 1 with
  | Some (n1, L1, d, x), Some (n2, L2, c, y) =>
      Forall2 better d c /\ tl d = tl c /\ x = 0 /\ y = 1 /\
      match mining_at L1 (mining_of ALICE POOL), mining_at L2 (mining_of ALICE POOL) with
      | Some m, Some n => m_unclaimed (wm m) = 0 /\ m_unclaimed (wm n) = 0 | _, _ => False end
  | _, _ => False end.
Proof. vm_compute. compare. Qed.
Lemma full_log_end e P k now L now' L' b x : full_log e P k now L now' L' b x -> open e k L'.
Proof. induction 1; assumption. Qed.
Theorem C86_alone_refuted : exists e P k now L now1 L1 now2 L2 b c x y m n,
  env_ok e /\ reached e now L /\ full_log e P k now L now1 L1 b x /\ full_log e P k now L now2 L2 c y /\ Forall2 better b c /\ tl b = tl c /\
  is_mining e L1 k m /\ is_mining e L2 k n /\ x + m_unclaimed (wm m) < y + m_unclaimed (wm n).
Proof.
  pose proof weeks as H. unfold week in H.
  destruct (write_log _ _ _ _ (a_week 3)) as [[[[n1 L1] d] x]|] eqn:E1; [|contradiction].
  destruct (write_log _ _ _ _ (a_week 1)) as [[[[n2 L2] c] y]|] eqn:E2; [|contradiction].
  apply write_log_ok in E1, E2. destruct H as (B & T & -> & -> & H).
  destruct (full_log_end _ _ _ _ _ _ _ _ _ E1) as (m & Hm & _). destruct (full_log_end _ _ _ _ _ _ _ _ _ E2) as (n & Hn & _).
  unfold mining_at in H. rewrite (proj2 Hm), (proj2 Hn) in H. destruct H as [Um Un].
  exists env0, POOL, (mining_of ALICE POOL), (at_noon 100), (ledger_after two_pools), n1, L1, n2, L2, d, c, 0, 1, m, n.
  split; [exact env0_ok|]. split; [apply plays_reached; vm_compute; reflexivity|]. split; [exact E1|]. split; [exact E2|].
  split; [exact B|]. split; [exact T|]. split; [exact Hm|]. split; [exact Hn|]. rewrite Um, Un. reflexivity.
Qed.
Print Assumptions C86_alone_refuted.
