(** C98: the budget runs its own course, and later dates and fewer days of distribution leave no less of it. *)
From stdpp Require Import gmap.
From Verif Require Import Base OMap State Spec EffectSpec SuccessSpec Ledger Program Clients LedgerLemmas LedgerSpec
  CodecLemmas History Scenario Attacks EffectExamples HistoryThms ReachThms FreezeSpec PropsFreeze CapSpec IncomeSpec DiarySpec Diary PropsDiary LogSpec Log PropsLog
  CompareSpec Compare PropsCompare LongerSpec Longer PropsLonger OwnSpec Own PropsOwn PartsSpec Parts PropsParts WfLemmas ScaleSpec Scale PropsScale RichSpec Rich PropsRich PaceSpec Pace.

(** Two histories, and a pool in each, with the same fills and the same times of distributions in the same
    order, and the same budget, date and days of distribution at the start.  Whatever else is done with the pools,
    and whoever has a stake, they are the same at the end. *)
Theorem C98_own_course : forall e1 e2, env_ok e1 -> env_ok e2 -> forall P1 P2 now1 L1 now1' L1' now2 L2 now2' L2' b c v w v' w',
  reached e1 now1 L1 -> reached e2 now2 L2 ->
  pool_log e1 P1 now1 L1 now1' L1' b -> pool_log e2 P2 now2 L2 now2' L2' c -> moves b = moves c ->
  is_pool e1 L1 P1 v -> is_pool e2 L2 P2 w ->
  p_avail (wp v) = p_avail (wp w) -> p_ends_at (wp v) = p_ends_at (wp w) -> map fst (wp_ci v) = map fst (wp_ci w) ->
  is_pool e1 L1' P1 v' -> is_pool e2 L2' P2 w' ->
  p_avail (wp v') = p_avail (wp w') /\ p_ends_at (wp v') = p_ends_at (wp w') /\ map fst (wp_ci v') = map fst (wp_ci w').
Proof. exact same_pace. Qed.
Print Assumptions C98_own_course.

(** If the fills of the first are no larger and for no longer, and it is handed out on the same days no earlier,
    and on further days, then no more is left at the end, as long as the second has room for the days. *)
Theorem C98_quicker : forall e1 e2, env_ok e1 -> env_ok e2 -> forall P1 P2 now1 L1 now1' L1' now2 L2 now2' L2' b c v w v' w',
  reached e1 now1 L1 -> reached e2 now2 L2 ->
  pool_log e1 P1 now1 L1 now1' L1' b -> pool_log e2 P2 now2 L2 now2' L2' c -> quicker (moves c) (moves b) (moves c) ->
  is_pool e1 L1 P1 v -> is_pool e2 L2 P2 w ->
  p_avail (wp v) <= p_avail (wp w) -> p_ends_at (wp v) <= p_ends_at (wp w) ->
  (forall d, on_day d (moves c) -> has_date d (wp_ci v) -> has_date d (wp_ci w)) ->
  is_pool e1 L1' P1 v' -> is_pool e2 L2' P2 w' -> Z.of_nat (length (wp_ci w')) < 1095 ->
  p_avail (wp v') <= p_avail (wp w') /\ p_ends_at (wp v') <= p_ends_at (wp w').
Proof. exact quicker_pace. Qed.
Print Assumptions C98_quicker.

(** ** Logs of given calls *)
Fixpoint write_pool_log (P : pubkey) (now : Z) (L : ledger) (l : list call) : option (Z * ledger * list entry) :=
  if running_b P L then
    match l with
    | [] => Some (now, L, [])
    | (ts, (ms, i)) :: r =>
        if (now <=? ts) && u64_b ts && range_b i then
          match exec env0 ts ms i L with
          | Ok (L1, _) => match write_pool_log P ts L1 r with Some (n, L2, d) => Some (n, L2, logged P ts ms i ++ d) | None => None end
          | Err _ => None
          end
        else None
    end
  else None.
Lemma write_pool_log_ok P l : forall now L now' L' d, write_pool_log P now L l = Some (now', L', d) -> pool_log env0 P now L now' L' d.
Proof.
  induction l as [|[ts [ms i]] r IH]; cbn [write_pool_log]; intros now L now' L' d H;
    (destruct (running_b P L) eqn:W; [apply running_b_ok in W|discriminate]).
  - injection H as <- <- <-. constructor; assumption.
  - destruct (_ && _ && _) eqn:G; [|discriminate]. apply andb_true_iff in G as [G G3]. apply andb_true_iff in G as [G1 G2].
    apply Z.leb_le in G1. unfold u64_b in G2. apply andb_true_iff in G2 as [G2 G4]. apply Z.leb_le in G2. apply Z.ltb_lt in G4.
    destruct (exec _ _ _ _ _) as [[L1 a]|] eqn:X; [|discriminate].
    destruct (write_pool_log P ts L1 r) as [[[n L2] d2]|] eqn:K; [|discriminate]. injection H as <- <- <-.
    eapply pl_ix; [exact W|exact G1|split; assumption|apply range_b_ok; exact G3|exact X|]. apply IH. exact K.
Qed.

(** ** [x] tokens until the day [d], handed out at the times [l]; ALICE stakes [a] more, BOB is slashed, and
    ALICE claims *)
Definition a_pace (a x d : Z) (l : list Z) : list call :=
  let k := mining_of ALICE POOL in let j := mining_of BOB POOL in
  [(at_noon 102, b_deposit POOL k AUTH k a L6M ALICE ALICE);
   (at_noon 102, b_fill_vault env0 POOL MINT (vault_of POOL) FILLER SOURCE x (at_noon d));
   (at_noon 102, b_slash AUTH POOL j BOB 10 40 (Some (at_noon 281)))]
  ++ map (fun ts => (ts, b_distribute POOL DISTR)) l
  ++ [(at_noon 107, b_claim env0 POOL MINT (vault_of POOL) k ALICE AUTH ALICE_T)].
Definition pace (a x d : Z) (l : list Z) := write_pool_log POOL (at_noon 101) (ledger_after all_in) (a_pace a x d l).
Definition budget (r : option (Z * ledger * list entry)) : option (Z * Z * Z) :=
  match r with
  | Some (_, L, _) => match pool_at L POOL with Some w => Some (p_avail (wp w), p_ends_at (wp w), p_index (wp w)) | None => None end
  | None => None end.
Definition logs (r : option (Z * ledger * list entry)) : list entry := match r with Some (_, _, d) => d | None => [] end.

Definition sooner := pace 5 1000 108 [at_noon 103; at_noon 104; at_noon 105].
Definition elsewise := pace 900000000 1000 108 [at_noon 103; at_noon 104; at_noon 105].
Definition slower := pace 7 1200 110 [at_noon 103 - 3600; at_noon 105].
Lemma paces : quicker (moves (logs slower)) (moves (logs sooner)) (moves (logs slower)).
Proof.
  replace (moves (logs sooner)) with [Fills 1000 (at_noon 108); HandsOut (at_noon 103); HandsOut (at_noon 104); HandsOut (at_noon 105)] by (vm_compute; reflexivity).
  replace (moves (logs slower)) with [Fills 1200 (at_noon 110); HandsOut (at_noon 103 - 3600); HandsOut (at_noon 105)] by (vm_compute; reflexivity).
  apply qk_fill; [lia|vm_compute; discriminate|]. apply qk_out; [reflexivity|lia|]. apply qk_more; [|apply qk_out; [reflexivity|lia|constructor]].
  intros (ts & H & D). cbn in H. destruct H as [H|[H|[H|[]]]]; try discriminate H; injection H as <-; vm_compute in D; discriminate D.
Qed.
Example C98_example :
  moves (logs sooner) = moves (logs elsewise) /\ length (logs sooner) = 6%nat /\
  budget sooner = Some (250, 9331200, 234923112423) /\ budget elsewise = Some (250, 9331200, 121584846279) /\
  quicker (moves (logs slower)) (moves (logs sooner)) (moves (logs slower)) /\ budget slower = Some (750, 9504000, 188769243549).
Proof.
  split; [vm_compute; reflexivity|]. split; [vm_compute; reflexivity|]. split; [vm_compute; reflexivity|]. split; [vm_compute; reflexivity|].
  split; [exact paces|vm_compute; reflexivity].
Qed.

(** ** What does not hold *)
(** A further distribution earlier on the same day can leave more: of 100 tokens with the day 105 as the end, half is
    handed out at midnight of the day 103 and nothing more at noon; but all of it where it is handed out at noon only. *)
Definition twice := pace 5 100 105 [103 * 86400; at_noon 103].
Definition just_once := pace 5 100 105 [at_noon 103].
Lemma halves : match twice, just_once with
  | Some (n1, L1, b), Some (n2, L2, c) =>
      moves b = [Fills 100 (at_noon 105); HandsOut (103 * 86400); HandsOut (at_noon 103)] /\ moves c = [Fills 100 (at_noon 105); HandsOut (at_noon 103)] /\
      running_b POOL L1 = true /\ running_b POOL L2 = true /\
      match pool_at L1 POOL, pool_at L2 POOL with Some v, Some w => p_avail (wp v) = 50 /\ p_avail (wp w) = 0 | _, _ => False end
  | _, _ => False end.
Proof. vm_compute. compare. Qed.
Theorem C98_same_day_refuted : exists e P now L now1 L1 now2 L2 b c x d s t v w,
  env_ok e /\ reached e now L /\ pool_log e P now L now1 L1 b /\ pool_log e P now L now2 L2 c /\
  s < t /\ day_start s = day_start t /\ moves b = [Fills x d; HandsOut s; HandsOut t] /\ moves c = [Fills x d; HandsOut t] /\
  is_pool e L1 P v /\ is_pool e L2 P w /\ p_avail (wp v) = 50 /\ p_avail (wp w) = 0.
Proof.
  pose proof halves as H. unfold twice, just_once, pace in H. pose proof all_in_reached as R.
  set (L0 := ledger_after all_in) in *. set (t0 := at_noon 101) in *. clearbody L0 t0.
  destruct (write_pool_log POOL t0 L0 (a_pace 5 100 105 [103 * 86400; at_noon 103])) as [[[n1 L1] b]|] eqn:E1; [|contradiction].
  destruct (write_pool_log POOL t0 L0 (a_pace 5 100 105 [at_noon 103])) as [[[n2 L2] c]|] eqn:E2; [|contradiction].
  apply write_pool_log_ok in E1, E2. destruct H as (B & C & W1 & W2 & H).
  apply running_b_ok in W1 as (v & Hv & _). apply running_b_ok in W2 as (w & Hw & _).
  unfold pool_at in H. rewrite (proj2 Hv), (proj2 Hw) in H. destruct H as [A1 A2].
  exists env0, POOL, t0, L0, n1, L1, n2, L2, b, c, 100, (at_noon 105), (103 * 86400), (at_noon 103), v, w.
  split; [exact env0_ok|]. do 3 (split; [eassumption|]). split; [unfold at_noon; lia|]. split; [vm_compute; reflexivity|]. repeat (split; [eassumption|]). exact A2.
Qed.
Print Assumptions C98_same_day_refuted.

(** Once the history of distributions is full, no more days are recorded, and two distributions of one day both hand out
    a part.  So of two equal budgets for the same time, with the same distributions, more is left where there is room. *)
Definition fresh_pool (x : Z) : list call :=
  [(at_noon 100, b_initialize_pool env0 POOL MINT (vault_of POOL) PAYER AUTH FILLER DISTR);
   (at_noon 100, b_initialize_mining POOL (mining_of ALICE POOL) PAYER ALICE);
   (at_noon 100, b_deposit POOL (mining_of ALICE POOL) AUTH (mining_of ALICE POOL) 10 LFlex ALICE ALICE);
   (at_noon 1194, b_fill_vault env0 POOL MINT (vault_of POOL) FILLER SOURCE x (at_noon 2100))].
Definition again : list call := [(at_noon 1195, b_distribute POOL DISTR); (at_noon 1195, b_distribute POOL DISTR)].
Definition LR : ledger := ledger_after (fresh_pool 452500).
Definition LF : ledger := ledger_after full_history.
Definition with_room := write_pool_log POOL (at_noon 1194) LR again.
Definition without_room := write_pool_log POOL (at_noon 1194) LF again.
Definition compared (x y : option (Z * ledger * list entry)) (p q : option wpool) : Prop :=
  match x, y with
  | Some (n1, L1, b), Some (n2, L2, c) =>
      b = c /\ moves c = [HandsOut (at_noon 1195); HandsOut (at_noon 1195)] /\
      match p, q with
      | Some v, Some w => p_avail (wp v) = 452500 /\ p_avail (wp w) = 452500 /\ p_ends_at (wp v) = 181440000 /\ p_ends_at (wp w) = 181440000 /\
          wp_ci v = [] /\ length (wp_ci w) = 1095%nat
      | _, _ => False end /\
      running_b POOL L1 = true /\ running_b POOL L2 = true /\
      match pool_at L1 POOL, pool_at L2 POOL with Some v, Some w => p_avail (wp v) = 452000 /\ p_avail (wp w) = 451500 | _, _ => False end
  | _, _ => False end.
Lemma agains : compared with_room without_room (pool_at LR POOL) (pool_at LF POOL).
Proof. vm_compute. repeat split; reflexivity. Qed.
(** all but the room is as in the theorems, and more is left to the first *)
Theorem C98_room_refuted : exists e P now L1 L2 now1 L1' now2 L2' b v w v' w',
  env_ok e /\ reached e now L1 /\ reached e now L2 /\ pool_log e P now L1 now1 L1' b /\ pool_log e P now L2 now2 L2' b /\ quicker (moves b) (moves b) (moves b) /\
  is_pool e L1 P v /\ is_pool e L2 P w /\ p_avail (wp v) = p_avail (wp w) /\ p_ends_at (wp v) = p_ends_at (wp w) /\ wp_ci v = [] /\ length (wp_ci w) = 1095%nat /\
  is_pool e L1' P v' /\ is_pool e L2' P w' /\ p_avail (wp v') = 452000 /\ p_avail (wp w') = 451500.
Proof.
  pose proof agains as H. unfold compared, with_room, without_room in H.
  assert (R1 : reached env0 (at_noon 1194) LR) by (apply plays_reached; vm_compute; reflexivity).
  assert (R2 : reached env0 (at_noon 1194) LF) by (apply plays_reached; vm_compute; reflexivity).
  set (L1 := LR) in *. set (L2 := LF) in *. set (t0 := at_noon 1194) in *. clearbody L1 L2 t0.
  destruct (write_pool_log POOL t0 L1 again) as [[[n1 L1'] b]|] eqn:E1; [|contradiction].
  destruct (write_pool_log POOL t0 L2 again) as [[[n2 L2'] c]|] eqn:E2; [|contradiction].
  apply write_pool_log_ok in E1, E2. destruct H as (<- & M & S & W1 & W2 & H).
  destruct (pool_log_running _ _ _ _ _ _ _ E1) as (v & Hv & _). destruct (pool_log_running _ _ _ _ _ _ _ E2) as (w & Hw & _).
  apply running_b_ok in W1 as (v' & Hv' & _). apply running_b_ok in W2 as (w' & Hw' & _).
  unfold pool_at in H, S. rewrite (proj2 Hv'), (proj2 Hw') in H. rewrite (proj2 Hv), (proj2 Hw) in S. destruct H as [A1 A2]. destruct S as (B1 & B2 & U1 & U2 & C1 & C2).
  exists env0, POOL, t0, L1, L2, n1, L1', n2, L2', b, v, w, v', w'.
  split; [exact env0_ok|]. do 4 (split; [assumption|]). split; [rewrite M; repeat (apply qk_out; [reflexivity|lia|]); constructor|].
  do 2 (split; [assumption|]). split; [congruence|]. split; [congruence|]. repeat (split; [assumption|]). exact A2.
Qed.
Print Assumptions C98_room_refuted.
