(** Executable check of the discipline, to build concrete histories. *)
From stdpp Require Import gmap.
From Verif Require Import Base OMap State Spec Core CoreThms.

Definition is_u64b (x : Z) : bool := (0 <=? x) && (x <? U64).

Definition op_wf_b (o : op) : bool :=
  match o with
  | ODeposit _ a _ _ => is_u64b a
  | OWithdraw _ a _ => is_u64b a
  | OExtend _ _ _ s b a _ => is_u64b s && is_u64b b && is_u64b a
  | OChange _ _ _ a => is_u64b a
  | OSlash _ n w d => is_u64b n && is_u64b w && match d with Some x => is_u64b x | None => true end
  | ODecrease _ n => is_u64b n
  | OFill r x _ => is_u64b r && is_u64b x
  | ODonate n => is_u64b n
  | OClaim _ | ODistribute | OInit _ _ _ _ | OClose _ => true
  end.

Definition no_midnight_b (ts : Z) (c : core) : bool :=
  negb (existsb (fun kv => fst kv =? ts) (wp_ci (c_pool c))).
Definition mining_is_b (c : core) (k : pubkey) (f : wmining -> bool) : bool :=
  match c_min c !! k with Some m => f m | None => true end.
Definition up_to_date_b (ts : Z) (c : core) (d : option pubkey) : bool :=
  match d with
  | None => true
  | Some x => mining_is_b c x (fun m => m_index (wm m) =? visible ts (wp_ci (c_pool c)))
  end.
Definition room_b (ts date : Z) (w : wmining) : bool :=
  existsb (fun kv => fst kv =? date) (wm_diffs w)
  || (Z.of_nat (length (after (day_start ts) (wm_diffs w))) <? 50).

Definition cond_b (x : cond) (ts : Z) (o : op) (c : core) : bool :=
  match x, o with
  | FreshDelegate, ODeposit _ _ _ d => up_to_date_b ts c d
  | FreshDelegate, OChange _ _ d _ => up_to_date_b ts c d
  | ExpiredExtend, OExtend _ old _ start _ _ _ => lockup_eqb old LFlex || (expiry old start <=? ts)
  | MiningRoom, ODeposit k _ p _ => mining_is_b c k (room_b ts (expiry p ts))
  | MiningRoom, OExtend k _ p _ _ _ _ => mining_is_b c k (room_b ts (expiry p ts))
  | NoMidnight, ODeposit _ _ _ _ => no_midnight_b ts c
  | NoMidnight, OExtend _ _ _ _ _ _ _ => no_midnight_b ts c
  | NoMidnight, OChange _ _ _ _ => no_midnight_b ts c
  | OnlyUnlocked, OWithdraw k a _ => mining_is_b c k (fun m => a <=? unlocked m)
  | OnlyUnlocked, OExtend k _ _ _ b _ _ => mining_is_b c k (fun m => b <=? unlocked m)
  | OnlyUnlocked, OSlash k _ w None => mining_is_b c k (fun m => w <=? unlocked m)
  | OnlyUnlocked, OSlash k n _ (Some _) => mining_is_b c k (fun m => n <=? unlocked m)
  | OutsideSource, OFill _ _ from_vault => negb from_vault
  | _, _ => true
  end.

Definition all_conds : list cond :=
  [FreshDelegate; ExpiredExtend; MiningRoom; NoMidnight; OnlyUnlocked; OutsideSource].
Definition cond_eqb (x y : cond) : bool :=
  match x, y with
  | FreshDelegate, FreshDelegate | ExpiredExtend, ExpiredExtend | MiningRoom, MiningRoom
  | NoMidnight, NoMidnight | OnlyUnlocked, OnlyUnlocked | OutsideSource, OutsideSource => true
  | _, _ => false
  end.
Definition disciplined_b (ts : Z) (o : op) (c : core) : bool :=
  forallb (fun x => cond_b x ts o c) all_conds.
Definition all_but_b (x : cond) (ts : Z) (o : op) (c : core) : bool :=
  forallb (fun y => cond_eqb y x || cond_b y ts o c) all_conds.

Definition pool_room_b (c : core) (date : Z) : bool :=
  existsb (fun kv => fst kv =? date) (wp_diffs (c_pool c))
  || (Z.of_nat (length (wp_diffs (c_pool c))) <? 365).
Definition exact_b (ts : Z) (o : op) (c : core) : bool :=
  disciplined_b ts o c &&
  match o with
  | ODeposit _ _ p _ => pool_room_b c (expiry p ts)
  | OExtend _ _ np _ _ _ _ => pool_room_b c (expiry np ts)
  | ODecrease _ n => n =? 0
  | OClose k => mining_is_b c k (fun m => m_share (wm m) =? due (day_start ts) (wm_diffs m))
  | _ => true
  end.

Fixpoint run (b : Z -> op -> core -> bool) (l : list (Z * op)) (c : core) : res core :=
  match l with
  | [] => Ok c
  | (ts, o) :: r =>
      if (c_now c <=? ts) && is_u64b ts && op_wf_b o && b ts o c then
        let? c' := core_step ts o c in run b r c'
      else Err EInvalidArgument
  end.

Lemma is_u64b_ok x : is_u64b x = true -> is_u64 x.
Proof. unfold is_u64b, is_u64. intros H. apply andb_true_iff in H as [H1 H2]. lia. Qed.

Lemma op_wf_b_ok o : op_wf_b o = true -> op_wf o.
Proof.
  destruct o; cbn [op_wf_b op_wf]; intros H; rewrite ?andb_true_iff in H;
    try (apply is_u64b_ok; exact H); try exact I.
  - destruct H as [[H1 H2] H3]. repeat apply conj; apply is_u64b_ok; assumption.
  - destruct H as [[H1 H2] H3]. split; [apply is_u64b_ok; assumption|].
    split; [apply is_u64b_ok; assumption|]. destruct date; [apply is_u64b_ok; assumption|exact I].
  - destruct H as [H1 H2]. split; apply is_u64b_ok; assumption.
Qed.

Lemma existsb_key ts (t : sched) :
  existsb (fun kv => fst kv =? ts) t = true -> exists v, In (ts, v) t.
Proof.
  intros H. apply existsb_exists in H as ([k v] & Hin & E). cbn in E. apply Z.eqb_eq in E. subst. eauto.
Qed.

Lemma mining_is_b_ok c k f (P : wmining -> Prop) :
  (forall m, f m = true -> P m) -> mining_is_b c k f = true -> mining_is c k P.
Proof. unfold mining_is_b, mining_is. intros Hf H m Hm. rewrite Hm in H. auto. Qed.

Lemma room_b_ok ts date m : room_b ts date m = true -> room ts date m.
Proof.
  unfold room_b, room. intros H. apply orb_true_iff in H as [H|H].
  - left. apply existsb_key. assumption.
  - right. lia.
Qed.

Lemma cond_b_ok x ts o c : cond_b x ts o c = true -> cond_ok x ts o c.
Proof.
  assert (Hup : forall d, up_to_date_b ts c d = true -> up_to_date ts c d).
  { intros d H y m E Hy. subst d. cbn in H. unfold mining_is_b in H. rewrite Hy in H. lia. }
  assert (Hmid : no_midnight_b ts c = true -> no_midnight ts c).
  { unfold no_midnight_b, no_midnight. intros H i Hin. apply negb_true_iff in H.
    assert (existsb (fun kv : Z * Z => fst kv =? ts) (wp_ci (c_pool c)) = true); [|congruence].
    apply existsb_exists. exists (ts, i). split; [assumption|]. apply Z.eqb_refl. }
  destruct x, o; cbn [cond_b cond_ok]; intros H; auto;
    try (eapply mining_is_b_ok; [|exact H]; intros; apply room_b_ok; assumption);
    try (eapply mining_is_b_ok; [|exact H]; intros; cbv beta in *; lia).
  - apply orb_true_iff in H as [H|H]; [left; destruct old_p; cbn in H; congruence|right; lia].
  - destruct date; (eapply mining_is_b_ok; [|exact H]; intros; cbv beta in *; lia).
  - apply negb_true_iff. assumption.
Qed.

Lemma all_conds_in x : In x all_conds.
Proof. destruct x; cbn; auto 10. Qed.

Lemma disciplined_b_ok ts o c : disciplined_b ts o c = true -> disciplined ts o c.
Proof.
  intros H x. unfold disciplined_b in H. rewrite forallb_forall in H.
  apply cond_b_ok, H, all_conds_in.
Qed.

Lemma all_but_b_ok x ts o c : all_but_b x ts o c = true -> all_but x ts o c.
Proof.
  intros H y Hy. unfold all_but_b in H. rewrite forallb_forall in H.
  specialize (H y (all_conds_in y)). apply orb_true_iff in H as [H|H].
  - destruct x, y; cbn in H; congruence.
  - apply cond_b_ok. assumption.
Qed.

Lemma exact_b_ok ts o c : exact_b ts o c = true -> exact_disciplined ts o c.
Proof.
  unfold exact_b, exact_disciplined. intros H. apply andb_true_iff in H as [H1 H2].
  split; [apply disciplined_b_ok; assumption|].
  assert (forall d, pool_room_b c d = true -> pool_room c d).
  { unfold pool_room_b, pool_room. intros d Hd. apply orb_true_iff in Hd as [Hd|Hd].
    - left. apply existsb_key. assumption.
    - right. lia. }
  destruct o; auto.
  - lia.
  - eapply mining_is_b_ok; [|exact H2]. intros; cbv beta in *; lia.
Qed.

Lemma history_trans P a b c : history P a b -> history P b c -> history P a c.
Proof. intros H1 H2. induction H2 as [|c c1 c2 ts o H IH Ht Hts Hwf HP Hs]; [exact H1|]. exact (h_step P a c1 c2 ts o (IH H1) Ht Hts Hwf HP Hs). Qed.

Lemma run_history (b : Z -> op -> core -> bool) (P : Z -> op -> core -> Prop) l c c' :
  (forall ts o c, b ts o c = true -> P ts o c) -> run b l c = Ok c' -> history P c c'.
Proof.
  intros Hb. revert c. induction l as [|[ts o] r IH]; cbn [run]; intros c H.
  - injection H as <-. constructor.
  - destruct (_ && _) eqn:E in H; [|discriminate].
    apply andb_true_iff in E as [E Hp]. apply andb_true_iff in E as [E Hwf].
    apply andb_true_iff in E as [Ht Hts].
    destruct (core_step ts o c) as [c1|] eqn:Hs; cbn [rbind] in H; [|discriminate].
    eapply history_trans; [|apply IH; exact H].
    eapply h_step; [apply h_refl| | | | |exact Hs].
    + lia.
    + apply is_u64b_ok; assumption.
    + apply op_wf_b_ok; assumption.
    + auto.
Qed.

(** a pool to start from *)
Definition pool0 : wpool := WPool (Pool 11 12 13 14 0 0 0 0 255 TYPE_POOL) [] [].
Definition core0 : core := fresh_core pool0 0 0.

Lemma run_reachable b (P : Z -> op -> core -> Prop) l c :
  (forall ts o c, b ts o c = true -> P ts o c) -> run b l core0 = Ok c -> reachable P c.
Proof.
  intros Hb H. exists pool0, 0, 0. split; [unfold fresh_pool, pool0; eauto 10|].
  split; [unfold U64; lia|]. split; [lia|]. eapply run_history; eauto.
Qed.
