(** Proofs of C77: the exact distance between a pool's total share and its minings. *)
From stdpp Require Import gmap.
From Verif Require Import Base OMap State Spec EffectSpec Core MapSum Ledger Program ResLemmas TreeLemmas AccrualLemmas RefreshLemmas WfLemmas LedgerLemmas LedgerSpec
  CodecLemmas History HistoryLemmas Changes AccessLemmas HistoryThms ReachThms EffectLemmas EffectMethods EffectThms EffectMore EffectCompare
  SuccessSpec SuccessThms LedgerView LedgerCore LedgerCoreThms LedgerDust Commute Double Worth BackSpec TakenBack CompleteSpec Complete ChoiceSpec Choice GapSpec.

(** ** Sums over the minings of a pool *)
Definition held (e : env) (P d : Z) (a : account) : Z := match live e P a with Some m => eff m d | None => 0 end.
Definition sum_on (e : env) (P d : Z) (L : ledger) : Z := msum (fun m => eff m d) (minings_of e P L).

Lemma sum_split e P d L k : sum_on e P d L = held e P d (acc L k) + msum (fun m => eff m d) (delete k (minings_of e P L)).
Proof.
  unfold sum_on, held. pose proof (min_look e P L k) as H. destruct (live e P (acc L k)) as [m|].
  - apply (msum_delete (fun m => eff m d)). exact H.
  - rewrite delete_notin by exact H. lia.
Qed.
Lemma sum_update e P d L L' k : (forall q, q <> k -> acc L' q = acc L q) ->
  sum_on e P d L' = sum_on e P d L + held e P d (acc L' k) - held e P d (acc L k).
Proof.
  intros H. rewrite (sum_split e P d L k), (sum_split e P d L' k).
  replace (delete k (minings_of e P L')) with (delete k (minings_of e P L)); [lia|].
  apply map_eq. intros q. destruct (Z.eq_dec q k) as [->|Hq]; [rewrite !lookup_delete; reflexivity|].
  rewrite !lookup_delete_ne by congruence. rewrite !min_look, H by exact Hq. reflexivity.
Qed.

Definition change_of (e : env) (P d : Z) (L : ledger) (l : list (pubkey * account)) : Z :=
  zsum (map (fun x => held e P d (snd x) - held e P d (acc L (fst x))) l).
Lemma becomes_sum e P d L l : forall L', becomes L L' l -> List.NoDup (map fst l) ->
  sum_on e P d L' = sum_on e P d L + change_of e P d L l.
Proof.
  induction l as [|[k a] r IH]; intros L' B N; cbn [map fst change_of zsum snd] in *.
  - assert (minings_of e P L' = minings_of e P L) as E.
    { apply mins_ext. intros q. rewrite (B q). reflexivity. }
    unfold sum_on. rewrite E. unfold change_of. cbn. lia.
  - apply NoDup_cons_iff in N as [N1 N2].
    assert (Hk : listed k r = None).
    { clear -N1. induction r as [|[x y] r IH]; [reflexivity|]. cbn in *. destruct (Z.eqb_spec x k); [tauto|]. apply IH. tauto. }
    pose (L1 := <[k := acc L k]> L').
    assert (B1 : becomes L L1 r).
    { intros q. subst L1. destruct (Z.eq_dec q k) as [->|Hq]; [rewrite acc_insert, Hk; reflexivity|].
      rewrite acc_insert_ne by congruence. rewrite (B q). cbn [listed]. destruct (Z.eqb_spec k q); [congruence|reflexivity]. }
    rewrite (sum_update e P d L1 L' k).
    + rewrite (IH L1 B1 N2). unfold change_of. subst L1. rewrite acc_insert. rewrite (B k). cbn [listed]. rewrite Z.eqb_refl. cbn. lia.
    + intros q Hq. subst L1. rewrite acc_insert_ne by congruence. reflexivity.
Qed.
Lemma held_mining e P d L k m : is_mining e L k m -> held e P d (acc L k) = if m_pool (wm m) =? P then eff m d else 0.
Proof. intros [Ho Hd]. unfold held, live, owner_of, data_of in *. rewrite Hd, Ho, Z.eqb_refl. cbn. destruct (_ =? _); reflexivity. Qed.
Lemma held_now e P d L k m m' : is_mining e L k m ->
  held e P d (holding (acc L k) (DMining m')) = if m_pool (wm m') =? P then eff m' d else 0.
Proof. intros [Ho _]. unfold held, live, holding, owner_of in *. cbn. rewrite Ho, Z.eqb_refl. cbn. destruct (_ =? _); reflexivity. Qed.
Lemma held_pool e P d L k w w' : is_pool e L k w -> held e P d (holding (acc L k) (DPool w')) = 0 /\ held e P d (acc L k) = 0.
Proof. intros [_ Hd]. unfold held, live, holding, data_of in *. rewrite Hd. cbn. auto. Qed.
Lemma held_other e P d L k : owner_of L k <> program_id e -> held e P d (acc L k) = 0.
Proof.
  intros Ho. unfold held, live, owner_of in *. apply Z.eqb_neq in Ho. rewrite Ho. destruct (a_data (acc L k)); reflexivity.
Qed.
Lemma held_token e P d L k t : held e P d (holding (acc L k) (DToken t)) = 0.
Proof. reflexivity. Qed.
Lemma held_having e P d a x : held e P d (having a x) = held e P d a.
Proof. reflexivity. Qed.

(** ** Schedules *)
Lemma existsb_date d (t : sched) : existsb (fun kv => fst kv =? d) t = ohas d t.
Proof. unfold ohas. induction t as [|[k v] r IH]; [reflexivity|]. cbn. rewrite IH. destruct (k =? d); reflexivity. Qed.
Lemma scheduled_exact cap d x t t' k : ascending t -> ascending t' -> scheduled cap d x t t' ->
  due k t' = due k t + (if d <=? k then x else 0) - lost cap d x t k.
Proof.
  intros A A' S. rewrite (scheduled_is _ _ _ _ _ A A' S). unfold oinsert, lost. rewrite at_date_oget, existsb_date. destruct (ohas d t) eqn:E.
  - apply ohas_true in E as (v & E). rewrite E, (due_oput_old _ _ _ _ _ A E). cbn [orb]. destruct (d <=? k); lia.
  - apply ohas_false in E. rewrite E. cbn [orb]. destruct (_ <? _); [|destruct (_ <=? _); lia].
    rewrite due_oput_new by exact E. destruct (_ <=? _); lia.
Qed.
Lemma existsb_map_fst (t : sched) d : existsb (fun x => x =? d) (map fst t) = existsb (fun kv => fst kv =? d) t.
Proof. induction t as [|[k v] r IH]; [reflexivity|]. cbn. rewrite IH. reflexivity. Qed.
Lemma lost_keys cap d x t t' k : map fst t' = map fst t -> lost cap d x t' k = lost cap d x t k.
Proof.
  intros H. unfold lost. replace (length t') with (length t) by (rewrite <- (map_length fst t), <- H, map_length; reflexivity).
  replace (existsb (fun kv => fst kv =? d) t') with (existsb (fun kv => fst kv =? d) t); [reflexivity|].
  rewrite <- (existsb_map_fst t d), <- (existsb_map_fst t' d), H. reflexivity.
Qed.

Lemma total_split d (t : sched) : total t = due d t + total (Spec.after d t).
Proof.
  unfold Spec.after. induction t as [|[k v] r IH]; [reflexivity|]. cbn [total due filter fst].
  destruct (Z.ltb_spec d k), (Z.leb_spec k d); try lia; cbn [total]; lia.
Qed.
Lemma eff_delegated m x d : eff (with_delegated m x) d = eff m d - m_sfo (wm m) + x.
Proof. unfold eff, with_delegated. cbn. lia. Qed.
Lemma eff_stake m m' d : only_stake m m' -> eff m' d = eff m d + (m_share (wm m') - m_share (wm m)) - (due d (wm_diffs m') - due d (wm_diffs m)).
Proof. intros (_ & _ & _ & H). unfold eff. rewrite H. lia. Qed.
(** ** Accounts *)
Lemma are_at ms ks n k : accounts_are ms ks -> nth_error ks n = Some k -> account_at ms n k.
Proof.
  intros [rest H] E. unfold account_at. rewrite H. rewrite nth_error_app1; [exact E|]. apply nth_error_Some. congruence.
Qed.
Lemma are_same ms ks ks' : accounts_are ms ks -> accounts_are ms ks' -> forall n x y,
  nth_error ks n = Some x -> nth_error ks' n = Some y -> x = y.
Proof.
  intros A B n x y Hx Hy. pose proof (are_at _ _ _ _ A Hx) as E1. pose proof (are_at _ _ _ _ B Hy) as E2.
  unfold account_at in *. congruence.
Qed.

Section env.
Context (e : env) (Henv : env_ok e) (P : pubkey) (HP : P <> 0) (d : Z).

Lemma gap_sum L w l : lists_minings e L P l -> gap w l d = total_on w d - sum_on e P d L.
Proof.
  intros [Hn Hl]. unfold gap, count_on, sum_on. f_equal.
  apply (list_msum_eq (f := fun m => eff m d)); [exact Hn|].
  intros k m. rewrite Hl. apply in_view.
Qed.

(** the mining at [k] and its delegate at [D] *)
Lemma of_pool_mining L k m : is_mining e L k m -> of_pool L P k = (m_pool (wm m) =? P).
Proof. intros [_ H]. unfold of_pool. rewrite H. reflexivity. Qed.
Lemma delegate_change ts ci L k D x y a p :
  day_start ts <= d -> delegate_part e L k D x -> delegated ts ci a x y ->
  change_of e P d L (delegate_now L D y) = (if p =? P then for_delegate x a else 0) - stray L p P k D a.
Proof.
  intros Hd [[-> ->]|(Hne & z & Hz & ->)] H; cbn [delegated] in H.
  - destruct y; [contradiction|]. unfold stray, change_of. rewrite Z.eqb_refl. cbn. destruct (_ =? _); reflexivity.
  - destruct y as [y|]; [|contradiction]. unfold stray, change_of. cbn [delegate_now mining_now map zsum fst snd for_delegate].
    rewrite (proj2 (Z.eqb_neq _ _) Hne), (of_pool_mining _ _ _ Hz), (held_mining _ _ _ _ _ _ Hz), (held_now _ _ _ _ _ _ _ Hz).
    rewrite (proj1 (rf_same _ _ _ _ H)), (eff_refreshed _ _ _ _ _ H Hd), eff_delegated. cbn [with_delegated wm m_pool m_sfo].
    destruct (m_pool (wm z) =? P); lia.
Qed.
Lemma redelegate_change ts ci L k D x y b a p :
  day_start ts <= d -> delegate_part e L k D x -> redelegated ts ci b a x y ->
  change_of e P d L (delegate_now L D y) = (if p =? P then for_delegate x a else 0) - stray L p P k D a.
Proof.
  intros Hd [[-> ->]|(Hne & z & Hz & ->)] H; cbn [redelegated] in H.
  - destruct y; [contradiction|]. unfold stray, change_of. rewrite Z.eqb_refl. cbn. destruct (_ =? _); reflexivity.
  - destruct y as [y|]; [|contradiction]. destruct H as (u & H & ->). unfold stray, change_of. cbn [delegate_now mining_now map zsum fst snd for_delegate].
    rewrite (proj2 (Z.eqb_neq _ _) Hne), (of_pool_mining _ _ _ Hz), (held_mining _ _ _ _ _ _ Hz), (held_now _ _ _ _ _ _ _ Hz).
    rewrite eff_delegated, (eff_refreshed _ _ _ _ _ H Hd), eff_delegated, (rf_sfo _ _ _ _ H). cbn [with_delegated wm m_pool m_sfo].
    rewrite (proj1 (rf_same _ _ _ _ H)). cbn [with_delegated wm m_pool m_sfo]. destruct (m_pool (wm z) =? P); lia.
Qed.
Lemma change_app L a b : change_of e P d L (a ++ b) = change_of e P d L a + change_of e P d L b.
Proof. unfold change_of. rewrite map_app. induction (map _ a) as [|x r IH]; cbn; [reflexivity|]. lia. Qed.
Lemma change_cons L k a r : change_of e P d L ((k, a) :: r) = held e P d a - held e P d (acc L k) + change_of e P d L r.
Proof. reflexivity. Qed.
Lemma pool_ne L p k w m : is_pool e L p w -> is_mining e L k m -> p <> k.
Proof. intros [_ H] [_ H'] ->. congruence. Qed.
Lemma delegate_key L D y : map fst (delegate_now L D y) = match y with Some _ => [D] | None => [] end.
Proof. destruct y; reflexivity. Qed.
Lemma stake_change ts ci m m1 m' : day_start ts <= d -> refreshed ts ci m m1 -> only_stake m1 m' ->
  eff m' d - eff m d = m_share (wm m') - m_share (wm m1) - (due d (wm_diffs m') - due d (wm_diffs m1)).
Proof. intros Hd R O. rewrite (eff_stake _ _ d O), (eff_refreshed _ _ _ _ _ R Hd). lia. Qed.
Lemma one_mining L k m m' : is_mining e L k m -> m_pool (wm m') = m_pool (wm m) ->
  change_of e P d L [mining_now L k m'] = if m_pool (wm m) =? P then eff m' d - eff m d else 0.
Proof.
  intros Hm Hp. unfold change_of. cbn [map mining_now fst snd zsum]. rewrite (held_mining _ _ _ _ _ _ Hm), (held_now _ _ _ _ _ _ _ Hm), Hp.
  destruct (_ =? _); lia.
Qed.
Lemma one_pool L p w w' : is_pool e L p w -> change_of e P d L [pool_now L p w'] = 0.
Proof. intros H. unfold change_of. cbn [map pool_now fst snd zsum]. destruct (held_pool e P d L p w w' H) as [-> ->]. lia. Qed.

(** what a pool and its minings become when a call names the accounts [p], [k], [D] *)
Lemma stake_sum L L' p k D w m w' m' dl : becomes L L' (pool_now L p w' :: mining_now L k m' :: delegate_now L D dl) ->
  is_pool e L p w -> is_mining e L k m -> m_pool (wm m) = p -> m_pool (wm m') = p ->
  match dl with Some _ => D <> k /\ exists z, is_mining e L D z | None => True end ->
  sum_on e P d L' = sum_on e P d L + (if p =? P then eff m' d - eff m d else 0) + change_of e P d L (delegate_now L D dl) /\
  is_pool e L' p w'.
Proof.
  intros B Hw Hm Hp Hp' Hd. split.
  - rewrite (becomes_sum e P d L _ L' B).
    + change (pool_now L p w' :: mining_now L k m' :: delegate_now L D dl) with ([pool_now L p w'] ++ [mining_now L k m'] ++ delegate_now L D dl).
      rewrite !change_app, (one_pool _ _ _ _ Hw), (one_mining _ _ _ _ Hm) by congruence. rewrite Hp. lia.
    + cbn [map fst pool_now mining_now]. rewrite delegate_key. pose proof (pool_ne _ _ _ _ _ Hw Hm).
      destruct dl as [z|]; [destruct Hd as [H1 [z' H2]]; pose proof (pool_ne _ _ _ _ _ Hw H2)|];
        repeat constructor; cbn; intros X; intuition congruence.
  - pose proof (B p) as E. cbn [listed pool_now] in E. rewrite Z.eqb_refl in E. destruct Hw as [Ho _].
    unfold is_pool, owner_of, data_of. rewrite E. split; [exact Ho|reflexivity].
Qed.
Lemma dlg_known L k D x y (R : option wmining -> option wmining -> Prop) : delegate_part e L k D x -> R x y ->
  (forall z, ~ R None (Some z)) ->
  match y with Some _ => D <> k /\ exists z, is_mining e L D z | None => True end.
Proof. intros [[-> ->]|(Hne & z & Hz & ->)] H Hn; destruct y as [y|]; try exact I; [exfalso; exact (Hn _ H)|eauto]. Qed.

(** a call that names another pool leaves the pool [P] as it is *)
Lemma other_same ts ms i L L' r p w : exec e ts ms i L = Ok (L', r) -> account_at ms (pool_position i) p ->
  p <> P -> is_pool e L P w -> is_pool e L' P w.
Proof.
  intros X A Hne Hw. pose proof (isolation_pool e Henv ts ms i L L' r p P w X A Hw ltac:(congruence)) as E.
  destruct Hw as [Ho Hd]. unfold is_pool, owner_of, data_of in *. rewrite E. auto.
Qed.


Lemma sums_as L L' l : becomes L L' l -> List.NoDup (map fst l) -> change_of e P d L l = 0 -> sum_on e P d L' = sum_on e P d L.
Proof. intros B N C. rewrite (becomes_sum e P d L l L' B N), C. lia. Qed.
Lemma now_pool L L' p w w' r : becomes L L' (pool_now L p w' :: r) -> is_pool e L p w -> is_pool e L' p w'.
Proof.
  intros B [Ho _]. pose proof (B p) as E. cbn [listed pool_now] in E. rewrite Z.eqb_refl in E.
  unfold is_pool, owner_of, data_of. rewrite E. split; [exact Ho|reflexivity].
Qed.
Lemma stake_of ts ci m m1 m' : refreshed ts ci m m1 -> only_stake m1 m' -> m_pool (wm m') = m_pool (wm m).
Proof. intros R ((O & _) & _). pose proof (rf_same _ _ _ _ R) as (S & _). congruence. Qed.
Ltac at_of A := eapply are_at; [exact A|reflexivity].
Definition stepped ts ms i L L' w : Prop := exists w' x, is_pool e L' P w' /\ moves e ts ms i L P d x /\
    total_on w' d - sum_on e P d L' = total_on w d - sum_on e P d L + x.

Lemma step_deposit now ts ms a p o wl L L' r w :
  reached e now L -> exec e ts ms (DepositMining a p o wl) L = Ok (L', r) -> day_start ts <= d ->
  is_pool e L P w -> effect e ts ms (DepositMining a p o wl) L L' r -> allowed e ts ms (DepositMining a p o wl) L ->
  stepped ts ms (DepositMining a p o wl) L L' w.
Proof.
  intros HL X Hd Hw (q & k & auth & D & v & m & dl & v' & m' & dl' & A & Hv & Hm & Hdl & E & _ & B) (q2 & k2 & a2 & D2 & v2 & m2 & dl2 & A2 & S2 & _).
  assert (q = q2) as <- by exact (are_same _ _ _ A A2 0%nat _ _ eq_refl eq_refl).
  assert (k = k2) as <- by exact (are_same _ _ _ A A2 1%nat _ _ eq_refl eq_refl).
  assert (m2 = m) as -> by exact (mining_fun e L k _ _ (sa_mining _ _ _ _ _ _ _ _ _ S2) Hm).
  pose proof (sa_of _ _ _ _ _ _ _ _ _ S2) as Hof.
  destruct E as ((m1 & R & O & Sh & Sc & A') & OT & T & ScP & AP & De).
  assert (Hof' : m_pool (wm m') = q).
  { rewrite (stake_of _ _ _ _ _ R O). exact Hof. }
  destruct (stake_sum L L' q k D v m v' m' dl' B Hv Hm Hof Hof') as [Hs Hq].
  { apply (dlg_known L k D dl dl' (delegated ts (wp_ci v) a) Hdl De). intros z []. }
  rewrite (delegate_change ts (wp_ci v) L k D dl dl' a q Hd Hdl De) in Hs.
  pose proof (reached_asc e Henv now L k m HL Hm) as Am. pose proof (pool_ascending e Henv now L q v HL Hv) as Av.
  assert (Am1 : ascending (wm_diffs m1)) by (rewrite (rf_diffs _ _ _ _ R); apply ascending_after; exact Am).
  pose proof (scheduled_exact _ _ _ _ _ d Am1 A' Sc) as D1. pose proof (scheduled_exact _ _ _ _ _ d Av AP ScP) as D2'.
  rewrite (rf_diffs _ _ _ _ R) in D1 at 2.
  pose proof (stake_change ts (wp_ci v) m m1 m' Hd R O) as Ef.
  destruct (Z.eq_dec q P) as [->|Hne].
  - assert (v = w) as -> by exact (pool_fun e L P _ _ Hv Hw). rewrite Z.eqb_refl in Hs.
    exists v', (stray L P P k D a + (lost 365 (expiry p ts) (a * (weight_of p - 1)) (wp_diffs w) d
                 - lost 50 (expiry p ts) (a * (weight_of p - 1)) (Spec.after (day_start ts) (wm_diffs m)) d)). split; [exact Hq|]. split.
    + exists P, k, D, w, m. rewrite Z.eqb_refl. repeat split; try assumption; try apply Hw; try apply Hm;
        eapply are_at; try exact A; reflexivity.
    + unfold total_on. rewrite Hs, T, D2', Ef, Sh, D1. destruct (_ <=? _); lia.
  - pose proof (other_same _ _ _ _ _ _ q w X (are_at _ _ 0 q A eq_refl) Hne Hw) as Hw'.
    exists w, (stray L q P k D a + 0). split; [exact Hw'|]. split.
    + exists q, k, D, v, m. rewrite (proj2 (Z.eqb_neq _ _) Hne). repeat split; try apply Hv; try apply Hm;
        eapply are_at; try exact A; reflexivity.
    + rewrite (proj2 (Z.eqb_neq _ _) Hne) in Hs. lia.
Qed.

Lemma step_withdraw now ts ms a o wl L L' r w :
  reached e now L -> exec e ts ms (WithdrawMining a o wl) L = Ok (L', r) -> day_start ts <= d ->
  is_pool e L P w -> effect e ts ms (WithdrawMining a o wl) L L' r -> allowed e ts ms (WithdrawMining a o wl) L ->
  stepped ts ms (WithdrawMining a o wl) L L' w.
Proof.
  intros HL X Hd Hw (q & k & auth & D & v & m & dl & v' & m' & dl' & A & Hv & Hm & Hdl & E & _ & B) (q2 & k2 & a2 & D2 & v2 & m2 & dl2 & A2 & S2 & _).
  assert (q = q2) as <- by exact (are_same _ _ _ A A2 0%nat _ _ eq_refl eq_refl).
  assert (k = k2) as <- by exact (are_same _ _ _ A A2 1%nat _ _ eq_refl eq_refl).
  assert (m2 = m) as -> by exact (mining_fun e L k _ _ (sa_mining _ _ _ _ _ _ _ _ _ S2) Hm).
  pose proof (sa_of _ _ _ _ _ _ _ _ _ S2) as Hof.
  destruct E as ((m1 & R & O & Sh & Sc) & OT & T & ScP & De).
  assert (Hof' : m_pool (wm m') = q) by (rewrite (stake_of _ _ _ _ _ R O); exact Hof).
  destruct (stake_sum L L' q k D v m v' m' dl' B Hv Hm Hof Hof') as [Hs Hq].
  { apply (dlg_known L k D dl dl' (delegated ts (wp_ci v) (- a)) Hdl De). intros z []. }
  rewrite (delegate_change ts (wp_ci v) L k D dl dl' (- a) q Hd Hdl De) in Hs.
  pose proof (stake_change ts (wp_ci v) m m1 m' Hd R O) as Ef. rewrite Sc, Sh in Ef.
  assert (Hst : stray L q P k D (- a) = - stray L q P k D a).
  { unfold stray. destruct (D =? k), (q =? P), (of_pool L P D); lia. }
  assert (Hfd : for_delegate dl (- a) = - for_delegate dl a) by (destruct dl; reflexivity).
  destruct (Z.eq_dec q P) as [->|Hne].
  - assert (v = w) as -> by exact (pool_fun e L P _ _ Hv Hw). rewrite Z.eqb_refl in Hs.
    exists v', (- stray L P P k D a). split; [exact Hq|]. split.
    + exists P, k, D. repeat split; try at_of A.
    + unfold total_on. rewrite Hs, T, ScP, due_after, Ef by exact Hd. lia.
  - pose proof (other_same _ _ _ _ _ _ q w X (are_at _ _ 0 q A eq_refl) Hne Hw) as Hw'.
    exists w, (- stray L q P k D a). split; [exact Hw'|]. split.
    + exists q, k, D. repeat split; at_of A.
    + rewrite (proj2 (Z.eqb_neq _ _) Hne) in Hs. lia.
Qed.

Lemma step_extend now ts ms op np start b a o wl L L' r w : let i := ExtendStake op np start b a o wl in
  reached e now L -> exec e ts ms i L = Ok (L', r) -> day_start ts <= d ->
  is_pool e L P w -> effect e ts ms i L L' r -> allowed e ts ms i L -> stepped ts ms i L L' w.
Proof.
  intros i HL X Hd Hw (q & k & auth & D & v & m & dl & v' & m' & dl' & A & Hv & Hm & Hdl & E & _ & B) (q2 & k2 & a2 & D2 & v2 & m2 & dl2 & A2 & S2 & _).
  assert (q = q2) as <- by exact (are_same _ _ _ A A2 0%nat _ _ eq_refl eq_refl).
  assert (k = k2) as <- by exact (are_same _ _ _ A A2 1%nat _ _ eq_refl eq_refl).
  assert (m2 = m) as -> by exact (mining_fun e L k _ _ (sa_mining _ _ _ _ _ _ _ _ _ S2) Hm).
  pose proof (sa_of _ _ _ _ _ _ _ _ _ S2) as Hof.
  destruct E as ((m1 & t & R & O & Sh & Lo & Sc & A') & OT & T & ScP & AP & De).
  assert (Hof' : m_pool (wm m') = q) by (rewrite (stake_of _ _ _ _ _ R O); exact Hof).
  destruct (stake_sum L L' q k D v m v' m' dl' B Hv Hm Hof Hof') as [Hs Hq].
  { apply (dlg_known L k D dl dl' (redelegated ts (wp_ci v) b a) Hdl De). intros z []. }
  rewrite (redelegate_change ts (wp_ci v) L k D dl dl' b a q Hd Hdl De) in Hs.
  pose proof (reached_asc e Henv now L k m HL Hm) as Am. pose proof (pool_ascending e Henv now L q v HL Hv) as Av.
  assert (Am1 : ascending (wm_diffs m1)) by (rewrite (rf_diffs _ _ _ _ R); apply ascending_after; exact Am).
  assert (Ht : ascending t /\ map fst t = map fst (wm_diffs m1) /\
     due d t = due d (wm_diffs m1) - (if unexpired op start ts && (expiry op start <=? d) then b * (weight_of op - 1) else 0)).
  { destruct (unexpired op start ts); cbn [andb].
    - pose proof (lowered_less _ _ _ _ d Am1 Lo) as Hl. destruct Lo as (_ & _ & Hk & _).
      split; [eapply ascending_keys; [symmetry; exact Hk|exact Am1]|]. split; [exact Hk|exact Hl].
    - rewrite Lo. split; [exact Am1|]. split; [reflexivity|lia]. }
  destruct Ht as (At & Kt & Dt).
  pose proof (scheduled_exact _ _ _ _ _ d At A' Sc) as D1. pose proof (scheduled_exact _ _ _ _ _ d Av AP ScP) as D2'.
  rewrite (lost_keys _ _ _ _ _ _ Kt), (rf_diffs _ _ _ _ R), Dt in D1.
  pose proof (stake_change ts (wp_ci v) m m1 m' Hd R O) as Ef.
  destruct (Z.eq_dec q P) as [->|Hne].
  - assert (v = w) as -> by exact (pool_fun e L P _ _ Hv Hw). rewrite Z.eqb_refl in Hs.
    eexists v', _. split; [exact Hq|]. split.
    + exists P, k, D, w, m. rewrite Z.eqb_refl. repeat split; try apply Hw; try apply Hm; at_of A.
    + unfold total_on. rewrite Hs, T, D2', Ef, Sh, D1. destruct (expiry np ts <=? d); lia.
  - pose proof (other_same _ _ _ _ _ _ q w X (are_at _ _ 0 q A eq_refl) Hne Hw) as Hw'.
    eexists w, _. split; [exact Hw'|]. split.
    + exists q, k, D, v, m. rewrite (proj2 (Z.eqb_neq _ _) Hne). repeat split; try apply Hv; try apply Hm; at_of A.
    + rewrite (proj2 (Z.eqb_neq _ _) Hne) in Hs. lia.
Qed.

Lemma step_change now ts ms a wl L L' r w : let i := ChangeDelegate a wl in
  reached e now L -> exec e ts ms i L = Ok (L', r) -> day_start ts <= d ->
  is_pool e L P w -> effect e ts ms i L L' r -> allowed e ts ms i L -> stepped ts ms i L L' w.
Proof.
  intros i HL X Hd Hw (q & k & auth & ow & Od & Nd & v & m & ol & nw & v' & m' & ol' & nw' & A & Hv & Hm & Hol & Hnw & E & _ & B)
    (q2 & k2 & a2 & ow2 & Od2 & Nd2 & v2 & m2 & ol2 & nw2 & A2 & S2 & _ & Hon & _).
  assert (q = q2) as <- by exact (are_same _ _ _ A A2 0%nat _ _ eq_refl eq_refl).
  assert (k = k2) as <- by exact (are_same _ _ _ A A2 1%nat _ _ eq_refl eq_refl).
  assert (Od = Od2) as <- by exact (are_same _ _ _ A A2 4%nat _ _ eq_refl eq_refl).
  assert (Nd = Nd2) as <- by exact (are_same _ _ _ A A2 5%nat _ _ eq_refl eq_refl).
  assert (m2 = m) as -> by exact (mining_fun e L k _ _ (sa_mining _ _ _ _ _ _ _ _ _ S2) Hm).
  pose proof (sa_of _ _ _ _ _ _ _ _ _ S2) as Hof.
  destruct E as (R & OT & ScP & T & De & Dn).
  assert (Hof' : m_pool (wm m') = q) by (pose proof (rf_same _ _ _ _ R) as (S & _); congruence).
  assert (K1 : match ol' with Some _ => Od <> k /\ exists z, is_mining e L Od z | None => True end)
    by (apply (dlg_known L k Od ol ol' (delegated ts (wp_ci v) (- a)) Hol De); intros z []).
  assert (K2 : match nw' with Some _ => Nd <> k /\ exists z, is_mining e L Nd z | None => True end)
    by (apply (dlg_known L k Nd nw nw' (delegated ts (wp_ci v) a) Hnw Dn); intros z []).
  pose proof (becomes_sum e P d L _ L' B) as Hs.
  change (pool_now L q v' :: mining_now L k m' :: delegate_now L Od ol' ++ delegate_now L Nd nw')
    with ([pool_now L q v'] ++ [mining_now L k m'] ++ delegate_now L Od ol' ++ delegate_now L Nd nw') in Hs.
  rewrite !change_app, (one_pool _ _ _ _ Hv), (one_mining _ _ _ _ Hm) in Hs by congruence.
  rewrite (delegate_change ts (wp_ci v) L k Od ol ol' (- a) q Hd Hol De), (delegate_change ts (wp_ci v) L k Nd nw nw' a q Hd Hnw Dn) in Hs.
  rewrite Hof, (eff_refreshed _ _ _ _ _ R Hd) in Hs.
  assert (Hst : stray L q P k Od (- a) = - stray L q P k Od a).
  { unfold stray. destruct (Od =? k), (q =? P), (of_pool L P Od); lia. }
  assert (Hfd : for_delegate ol (- a) = - for_delegate ol a) by (destruct ol; reflexivity).
  assert (Hs' : sum_on e P d L' = sum_on e P d L + ((if q =? P then for_delegate nw a - for_delegate ol a else 0) - stray L q P k Nd a + stray L q P k Od a)).
  { rewrite Hs.
    - rewrite Hst, Hfd. destruct (q =? P); lia.
    - cbn [map fst pool_now mining_now app]. rewrite map_app, !delegate_key. pose proof (pool_ne _ _ _ _ _ Hv Hm).
      destruct ol' as [z|]; [destruct K1 as [H1 [z' H2]]; pose proof (pool_ne _ _ _ _ _ Hv H2)|];
      (destruct nw' as [y|]; [destruct K2 as [H3 [y' H4]]; pose proof (pool_ne _ _ _ _ _ Hv H4)|]);
        repeat constructor; cbn; intros Z; intuition congruence. }
  clear Hs. pose proof (now_pool _ _ _ _ _ _ B Hv) as Hq.
  destruct (Z.eq_dec q P) as [->|Hne].
  - assert (v = w) as -> by exact (pool_fun e L P _ _ Hv Hw). rewrite Z.eqb_refl in Hs'.
    eexists v', _. split; [exact Hq|]. split.
    + exists P, k, Od, Nd. repeat split; at_of A.
    + unfold total_on. rewrite Hs', T, ScP. lia.
  - pose proof (other_same _ _ _ _ _ _ q w X (are_at _ _ 0 q A eq_refl) Hne Hw) as Hw'.
    eexists w, _. split; [exact Hw'|]. split.
    + exists q, k, Od, Nd. repeat split; at_of A.
    + rewrite (proj2 (Z.eqb_neq _ _) Hne) in Hs'. lia.
Qed.

Lemma step_slash now ts ms o nat0 wt date L L' r w : let i := Slash o nat0 wt date in
  reached e now L -> exec e ts ms i L = Ok (L', r) -> day_start ts <= d ->
  is_pool e L P w -> effect e ts ms i L L' r -> allowed e ts ms i L -> stepped ts ms i L L' w.
Proof.
  intros i HL X Hd Hw (auth & q & k & v & m & v' & m' & A & Hv & Hm & E & _ & B) (a2 & q2 & k2 & v2 & m2 & A2 & S2 & _).
  assert (q = q2) as <- by exact (are_same _ _ _ A A2 1%nat _ _ eq_refl eq_refl).
  assert (k = k2) as <- by exact (are_same _ _ _ A A2 2%nat _ _ eq_refl eq_refl).
  assert (m2 = m) as -> by exact (mining_fun e L k _ _ (sa_mining _ _ _ _ _ _ _ _ _ S2) Hm).
  pose proof (sa_of _ _ _ _ _ _ _ _ _ S2) as Hof.
  destruct E as (m1 & R & O & OT & Sh & T & Dt).
  assert (Hof' : m_pool (wm m') = q) by (rewrite (stake_of _ _ _ _ _ R O); exact Hof).
  destruct (stake_sum L L' q k k v m v' m' None B Hv Hm Hof Hof' I) as [Hs Hq].
  replace (change_of e P d L (delegate_now L k None)) with 0 in Hs by reflexivity.
  pose proof (stake_change ts (wp_ci v) m m1 m' Hd R O) as Ef.
  pose proof (reached_asc e Henv now L k m HL Hm) as Am. pose proof (pool_ascending e Henv now L q v HL Hv) as Av.
  assert (Am1 : ascending (wm_diffs m1)) by (rewrite (rf_diffs _ _ _ _ R); apply ascending_after; exact Am).
  assert (Ed : due d (wp_diffs v') - (due d (wp_diffs v) - due (day_start ts) (wp_diffs v)) = due d (wm_diffs m') - due d (wm_diffs m1)).
  { destruct date as [x|].
    - destruct Dt as [L1 L2]. rewrite (lowered_less _ _ _ _ d Am1 L1), (lowered_less _ _ _ _ d (ascending_after _ _ Av) L2), due_after by exact Hd. lia.
    - destruct Dt as [-> ->]. rewrite due_after by exact Hd. lia. }
  destruct (Z.eq_dec q P) as [->|Hne].
  - assert (v = w) as -> by exact (pool_fun e L P _ _ Hv Hw). rewrite Z.eqb_refl in Hs.
    exists v', 0. split; [exact Hq|]. split; [reflexivity|].
    unfold total_on. rewrite Hs, T, Ef, Sh. lia.
  - pose proof (other_same _ _ _ _ _ _ q w X (are_at _ _ 1 q A eq_refl) Hne Hw) as Hw'.
    exists w, 0. split; [exact Hw'|]. split; [reflexivity|].
    rewrite (proj2 (Z.eqb_neq _ _) Hne) in Hs. lia.
Qed.

Lemma all_after (t t' : sched) : exists b, Spec.after b t = t /\ Spec.after b t' = t'.
Proof.
  assert (H : forall t : sched, exists b, forall c, c <= b -> Spec.after c t = t).
  { intros u. induction u as [|[x y] r [b IH]]; [exists 0; reflexivity|]. exists (Z.min b (x - 1)). intros c Hc.
    unfold Spec.after in *. cbn [filter fst]. destruct (Z.ltb_spec c x); [|lia]. f_equal. apply IH. lia. }
  destruct (H t) as [a Ha], (H t') as [b Hb]. exists (Z.min a b). split; [apply Ha|apply Hb]; lia.
Qed.
Lemma step_decrease ts ms o n L L' r w : let i := DecreaseRewards o n in ix_in_range i ->
  exec e ts ms i L = Ok (L', r) -> day_start ts <= d ->
  is_pool e L P w -> effect e ts ms i L L' r -> allowed e ts ms i L -> stepped ts ms i L L' w.
Proof.
  intros i Hi X Hd Hw (auth & q & k & m & m' & A & Hm & E & _ & B) (a2 & q2 & k2 & v2 & m2 & A2 & S2 & _).
  assert (q = q2) as <- by exact (are_same _ _ _ A A2 1%nat _ _ eq_refl eq_refl).
  assert (k = k2) as <- by exact (are_same _ _ _ A A2 2%nat _ _ eq_refl eq_refl).
  assert (m2 = m) as -> by exact (mining_fun e L k _ _ (sa_mining _ _ _ _ _ _ _ _ _ S2) Hm).
  pose proof (sa_of _ _ _ _ _ _ _ _ _ S2) as Hof.
  destruct E as (O & Sh & Hk & Hl).
  assert (Hs : sum_on e P d L' = sum_on e P d L + change_of e P d L [mining_now L k m']).
  { apply (becomes_sum e P d L _ L' B). repeat constructor. intros []. }
  rewrite (one_mining _ _ _ _ Hm) in Hs by (destruct O as ((S & _) & _); exact S). rewrite Hof in Hs.
  assert (Hp' : is_pool e L' P w).
  { pose proof (B P) as E. cbn [listed mining_now] in E. pose proof (pool_ne _ _ _ _ _ Hw Hm).
    destruct (Z.eqb_spec k P); [congruence|]. destruct Hw as [Ho Hd']. unfold is_pool, owner_of, data_of in *. rewrite E. auto. }
  eexists w, _. split; [exact Hp'|]. split.
  - exists q, k, m. repeat split; try apply Hm; at_of A.
  - rewrite Hs, (eff_stake _ _ d O), Sh. destruct (q =? P); [|lia].
    destruct (all_after (wm_diffs m) (wm_diffs m')) as (b & B1 & B2).
    pose proof (Hl b) as T0. rewrite B1, B2 in T0. pose proof (Hl d) as T1.
    pose proof (total_split d (wm_diffs m)). pose proof (total_split d (wm_diffs m')). lia.
Qed.

Lemma step_distribute ts ms L L' r w : let i := DistributeRewards in
  exec e ts ms i L = Ok (L', r) -> day_start ts <= d ->
  is_pool e L P w -> effect e ts ms i L L' r -> stepped ts ms i L L' w.
Proof.
  intros i X Hd Hw (q & auth & v & v' & A & Hv & E & _ & B).
  assert (Hs : sum_on e P d L' = sum_on e P d L).
  { apply (sums_as _ _ _ B); [repeat constructor; intros []|]. apply (one_pool _ _ _ _ Hv). }
  destruct (Z.eq_dec q P) as [->|Hne].
  - assert (v = w) as -> by exact (pool_fun e L P _ _ Hv Hw).
    exists v', 0. split; [exact (now_pool _ _ _ _ _ _ B Hv)|]. split; [reflexivity|].
    destruct E as (_ & T & S & _). unfold total_on. rewrite Hs, T, S, due_after by exact Hd. lia.
  - pose proof (other_same _ _ _ _ _ _ q w X (are_at _ _ 0 q A eq_refl) Hne Hw) as Hw'.
    exists w, 0. split; [exact Hw'|]. split; [reflexivity|]. lia.
Qed.
Lemma tokens_same L src dst s v x : data_of L src = DToken s -> data_of L dst = DToken v ->
  change_of e P d L (tokens_now L src dst s v x) = 0.
Proof.
  intros Hs Hv. unfold tokens_now. destruct (_ =? _); [reflexivity|].
  unfold change_of. cbn [map zsum fst snd]. rewrite !held_token. unfold held, live, data_of in *. rewrite Hs, Hv. reflexivity.
Qed.
Lemma tokens_keys L src dst s v x k : data_of L src = DToken s -> data_of L dst = DToken v ->
  (forall t, data_of L k <> DToken t) -> List.NoDup (k :: map fst (tokens_now L src dst s v x)).
Proof.
  intros Hs Hv Hk. unfold tokens_now. destruct (Z.eqb_spec src dst); cbn [map fst]; repeat constructor; cbn; intros Z; try contradiction.
  - destruct Z as [->|[->|[]]]; eapply Hk; eassumption.
  - destruct Z as [->|[]]. congruence.
Qed.
Lemma step_fill ts ms x date L L' r w : let i := FillVault x date in
  exec e ts ms i L = Ok (L', r) -> is_pool e L P w -> effect e ts ms i L L' r -> stepped ts ms i L L' w.
Proof.
  intros i X Hw (q & mi & va & auth & src & v & s & t & A & Hv & Hsr & Hva & _ & B).
  assert (Hs : sum_on e P d L' = sum_on e P d L).
  { apply (sums_as _ _ _ B).
    - apply (tokens_keys L src va s t x q Hsr Hva). intros t0. destruct Hv as [_ ->]. discriminate.
    - change (pool_now L q (filled v x date) :: tokens_now L src va s t x) with ([pool_now L q (filled v x date)] ++ tokens_now L src va s t x).
      rewrite change_app, (one_pool _ _ _ _ Hv), (tokens_same _ _ _ _ _ _ Hsr Hva). reflexivity. }
  destruct (Z.eq_dec q P) as [->|Hne].
  - assert (v = w) as -> by exact (pool_fun e L P _ _ Hv Hw).
    exists (filled w x date), 0. split; [exact (now_pool _ _ _ _ _ _ B Hv)|]. split; [reflexivity|]. rewrite Hs. unfold total_on. cbn. lia.
  - pose proof (other_same _ _ _ _ _ _ q w X (are_at _ _ 0 q A eq_refl) Hne Hw) as Hw'.
    exists w, 0. split; [exact Hw'|]. split; [reflexivity|]. lia.
Qed.
Lemma kept_pool L L' l w : becomes L L' l -> is_pool e L P w -> ~ In P (map fst l) -> is_pool e L' P w.
Proof.
  intros B [Ho Hd'] N. assert (listed P l = None) as E.
  { clear -N. induction l as [|[x y] r IH]; [reflexivity|]. cbn in *. destruct (Z.eqb_spec x P); [tauto|]. apply IH. tauto. }
  pose proof (B P) as H. rewrite E in H. unfold is_pool, owner_of, data_of in *. rewrite H. auto.
Qed.
Lemma step_claim ts ms L L' r w : let i := Claim in
  day_start ts <= d -> is_pool e L P w -> effect e ts ms i L L' r -> stepped ts ms i L L' w.
Proof.
  intros i Hd Hw (q & mi & va & k & ow & auth & ds & v & m & m1 & A & Hv & Hm & R & _ & E).
  assert (H1 : change_of e P d L [mining_now L k (emptied m1)] = 0).
  { rewrite (one_mining _ _ _ _ Hm) by (cbn; apply (rf_same _ _ _ _ R)). destruct (_ =? _); [|reflexivity].
    rewrite <- (eff_refreshed _ _ _ _ _ R Hd). unfold eff, emptied. cbn. lia. }
  assert (Hk : P <> k) by exact (pool_ne _ _ _ _ _ Hw Hm).
  destruct E as [[_ B]|[_ (t1 & t2 & H2 & H3 & B)]].
  - exists w, 0. split; [|split; [reflexivity|]].
    + apply (kept_pool _ _ _ _ B Hw). cbn. intuition congruence.
    + rewrite (sums_as _ _ _ B); [lia|repeat constructor; intros []|exact H1].
  - exists w, 0. split; [|split; [reflexivity|]].
    + apply (kept_pool _ _ _ _ B Hw). cbn [map fst mining_now In]. intros [Z|Z]; [congruence|].
      unfold tokens_now in Z. destruct (_ =? _); [exact Z|]. destruct Hw as [_ Hw]. cbn in Z. destruct Z as [->|[->|[]]]; congruence.
    + rewrite (sums_as _ _ _ B); [lia| |].
      * apply (tokens_keys L va ds t1 t2 _ k H2 H3). intros t0. destruct Hm as [_ ->]. discriminate.
      * change (mining_now L k (emptied m1) :: tokens_now L va ds t1 t2 (m_unclaimed (wm m1)))
          with ([mining_now L k (emptied m1)] ++ tokens_now L va ds t1 t2 (m_unclaimed (wm m1))).
        rewrite change_app, H1, (tokens_same _ _ _ _ _ _ H2 H3). reflexivity.
Qed.
Lemma step_close ts ms L L' r w : let i := CloseMining in
  day_start ts <= d -> is_pool e L P w -> effect e ts ms i L L' r -> allowed e ts ms i L -> stepped ts ms i L L' w.
Proof.
  intros i Hd Hw (k & ow & tg & A & _ & B) (k2 & ow2 & tg2 & a2 & q2 & v2 & m & A2 & Hv & Hm & Htg & _).
  assert (k = k2) as <- by exact (are_same _ _ _ A A2 0%nat _ _ eq_refl eq_refl).
  assert (tg = tg2) as <- by exact (are_same _ _ _ A A2 2%nat _ _ eq_refl eq_refl).
  assert (Hps : program_id e <> system_id) by apply Henv.
  assert (Hkt : k <> tg) by (intros ->; destruct Hm as [Ho _]; congruence).
  assert (Hk : P <> k) by exact (pool_ne _ _ _ _ _ Hw Hm).
  eexists w, _. split; [|split].
  - apply (kept_pool _ _ _ _ B Hw). cbn. destruct Hw as [Ho _]. intros [Z|[Z|[]]]; congruence.
  - exists k, m. split; [at_of A|]. split; [exact Hm|reflexivity].
  - rewrite (becomes_sum e P d L _ L' B) by (cbn; repeat constructor; cbn; intuition congruence).
    rewrite (of_pool_mining _ _ _ Hm). unfold change_of. cbn [map zsum fst snd]. rewrite held_having, (held_mining _ _ _ _ _ _ Hm).
    replace (held e P d (Account 0 (owner_of L k) (DMining (WMining (Mining 0 0 0 0 0 0 0 0 0) [])))) with 0; [lia|].
    unfold held, live. cbn [a_data a_owner]. destruct Hm as [Ho _]. rewrite Ho, Z.eqb_refl. cbn [andb wm m_pool].
    rewrite (proj2 (Z.eqb_neq 0 P)) by congruence. reflexivity.
Qed.
Lemma step_init_mining ts ms o L L' r w : let i := InitializeMining o in
  is_pool e L P w -> effect e ts ms i L L' r -> allowed e ts ms i L -> stepped ts ms i L L' w.
Proof.
  intros i Hw (q & k & py & b & A & _ & _ & B) (q2 & k2 & py2 & A2 & _ & _ & V & Py & Hne).
  assert (k = k2) as <- by exact (are_same _ _ _ A A2 1%nat _ _ eq_refl eq_refl).
  assert (py = py2) as <- by exact (are_same _ _ _ A A2 2%nat _ _ eq_refl eq_refl).
  assert (Hps : program_id e <> system_id) by apply Henv.
  destruct V as (_ & Vo & _). destruct Py as (_ & Po & _).
  exists w, 0. split; [|split; [reflexivity|]].
  - apply (kept_pool _ _ _ _ B Hw). cbn. destruct Hw as [Ho _]. intros [Z|[Z|[]]]; congruence.
  - rewrite (sums_as _ _ _ B); [lia|cbn; repeat constructor; cbn; intuition congruence|].
    unfold change_of. cbn [map zsum fst snd]. rewrite held_having, (held_other _ _ _ _ k) by congruence.
    unfold held at 1, live. cbn. rewrite Z.eqb_refl. cbn. destruct (_ =? _); unfold eff; cbn; lia.
Qed.
Lemma step_init_pool ts ms f dd L L' r w : let i := InitializePool f dd in
  exec e ts ms i L = Ok (L', r) -> is_pool e L P w -> p_type (wp w) = TYPE_POOL ->
  effect e ts ms i L L' r -> allowed e ts ms i L -> stepped ts ms i L L' w.
Proof.
  intros i X Hw Hty (q & mi & va & py & au & b & A & _ & _ & B) (q2 & mi2 & va2 & py2 & au2 & v & A2 & Hv & Hnt & _ & _ & _ & V & Py & Hne & _).
  assert (q = q2) as <- by exact (are_same _ _ _ A A2 0%nat _ _ eq_refl eq_refl).
  assert (va = va2) as <- by exact (are_same _ _ _ A A2 2%nat _ _ eq_refl eq_refl).
  assert (py = py2) as <- by exact (are_same _ _ _ A A2 3%nat _ _ eq_refl eq_refl).
  assert (Hps : program_id e <> system_id) by apply Henv.
  destruct (Z.eq_dec q P) as [->|Hqp].
  { assert (v = w) as -> by exact (pool_fun e L P _ _ Hv Hw). exfalso. apply Hnt. exact Hty. }
  destruct V as (_ & Vo & _). destruct Py as (_ & Po & _). destruct Hv as [Hvo Hvd].
  exists w, 0. split; [|split; [reflexivity|]].
  - exact (other_same _ _ _ _ _ _ q w X (are_at _ _ 0 q A eq_refl) Hqp Hw).
  - rewrite (sums_as _ _ _ B); [lia|cbn; repeat constructor; cbn; intuition congruence|].
    set (w0 := WPool _ _ _). unfold change_of. cbn [map zsum fst snd pool_now]. rewrite held_having, (held_other _ _ _ _ va) by congruence.
    destruct (held_pool e P d L q v w0 (conj Hvo Hvd)) as [-> ->]. unfold held, live. cbn. lia.
Qed.

Lemma step_gap now ts ms i L L' r w :
  reached e now L -> now <= ts -> ix_in_range i -> exec e ts ms i L = Ok (L', r) -> day_start ts <= d ->
  is_pool e L P w -> p_type (wp w) = TYPE_POOL -> stepped ts ms i L L' w.
Proof.
  intros HL Hts Hi X Hd Hw Hty.
  pose proof (exec_effect e Henv _ _ _ _ _ _ _ HL Hts Hi X) as F.
  pose proof (only_allowed e Henv now ts ms i L L' r HL Hts Hi X) as A.
  destruct i.
  - eapply step_init_pool; eassumption.
  - eapply step_fill; eassumption.
  - eapply step_init_mining; eassumption.
  - eapply step_deposit; eassumption.
  - eapply step_withdraw; eassumption.
  - eapply step_claim; eassumption.
  - eapply step_extend; eassumption.
  - eapply step_distribute; eassumption.
  - eapply step_close; eassumption.
  - eapply step_change; eassumption.
  - eapply step_slash; eassumption.
  - eapply step_decrease; eassumption.
Qed.

(** ** Histories *)
Lemma moves_fun ts ms i L x y : moves e ts ms i L P d x -> moves e ts ms i L P d y -> x = y.
Proof.
  destruct i; cbn [moves]; try (intros; congruence).
  - intros (p & k & D & w & m & A & B & C & W & M & ->) (p' & k' & D' & w' & m' & A' & B' & C' & W' & M' & ->).
    assert (p' = p) as -> by exact (Changes.at_fun _ _ _ _ A' A). assert (k' = k) as -> by exact (Changes.at_fun _ _ _ _ B' B).
    assert (D' = D) as -> by exact (Changes.at_fun _ _ _ _ C' C).
    assert (w' = w) as -> by exact (pool_fun e L p _ _ W' W). assert (m' = m) as -> by exact (mining_fun e L k _ _ M' M). reflexivity.
  - intros (p & k & D & A & B & C & ->) (p' & k' & D' & A' & B' & C' & ->).
    assert (p' = p) as -> by exact (Changes.at_fun _ _ _ _ A' A). assert (k' = k) as -> by exact (Changes.at_fun _ _ _ _ B' B).
    assert (D' = D) as -> by exact (Changes.at_fun _ _ _ _ C' C). reflexivity.
  - intros (p & k & D & w & m & A & B & C & W & M & ->) (p' & k' & D' & w' & m' & A' & B' & C' & W' & M' & ->).
    assert (p' = p) as -> by exact (Changes.at_fun _ _ _ _ A' A). assert (k' = k) as -> by exact (Changes.at_fun _ _ _ _ B' B).
    assert (D' = D) as -> by exact (Changes.at_fun _ _ _ _ C' C).
    assert (w' = w) as -> by exact (pool_fun e L p _ _ W' W). assert (m' = m) as -> by exact (mining_fun e L k _ _ M' M). reflexivity.
  - intros (k & m & A & M & ->) (k' & m' & A' & M' & ->). assert (k' = k) as -> by exact (Changes.at_fun _ _ _ _ A' A).
    assert (m' = m) as -> by exact (mining_fun e L k _ _ M' M). reflexivity.
  - intros (p & k & D & N & A & B & C & C2 & ->) (p' & k' & D' & N' & A' & B' & C' & C2' & ->).
    assert (p' = p) as -> by exact (Changes.at_fun _ _ _ _ A' A). assert (k' = k) as -> by exact (Changes.at_fun _ _ _ _ B' B).
    assert (D' = D) as -> by exact (Changes.at_fun _ _ _ _ C' C). assert (N' = N) as -> by exact (Changes.at_fun _ _ _ _ C2' C2). reflexivity.
  - intros (p & k & m & A & B & M & ->) (p' & k' & m' & A' & B' & M' & ->).
    assert (p' = p) as -> by exact (Changes.at_fun _ _ _ _ A' A). assert (k' = k) as -> by exact (Changes.at_fun _ _ _ _ B' B).
    assert (m' = m) as -> by exact (mining_fun e L k _ _ M' M). reflexivity.
Qed.

Context (Hrent : 0 < rent_min e MINING_LEN).


Lemma run_minings now L evs now' L' : History.run e now L evs now' L' -> 0 <= now -> ledger_ok e now L -> minings_ok e L -> minings_ok e L'.
Proof.
  intros R. induction R as [|now L ev L1 evs now' L' S R IH]; intros H0 O M; [exact M|].
  assert (O1 : ledger_ok e (time_of ev) L1) by (eapply step_ok; eassumption).
  assert (Hn1 : 0 <= time_of ev) by (pose proof (step_time e _ _ _ _ S); lia).
  apply IH; [exact Hn1|exact O1|]. destruct S as [ts ms i L1 r Hts _ _ X|ts L1 Hts _ X].
  - exact (exec_minings e Henv Hrent now ts ms i L L1 r Hts O M X).
  - exact (ext_minings e L L1 X M).
Qed.
Lemma reached_minings now L : reached e now L -> minings_ok e L.
Proof.
  intros (L0 & evs & G & R). eapply (run_minings 0 L0 evs); [exact R|lia|apply genesis_ok; [lia|assumption]|].
  intros k m M; right; rewrite (genesis_zero e L0 k m G M); split; reflexivity.
Qed.
Lemma run_mono now L evs now' L' : History.run e now L evs now' L' -> now <= now'.
Proof. intros R. induction R as [|now L ev L1 evs now' L' S R IH]; [lia|]. pose proof (step_time e _ _ _ _ S). lia. Qed.
Lemma day_mono a b : a <= b -> day_start a <= day_start b.
Proof. intros H. unfold day_start. pose proof (Z.div_le_mono a b 86400 ltac:(lia) H). nia. Qed.

Lemma step_drift now L ev L1 w : reached e now L -> step e now L ev L1 -> day_start (time_of ev) <= d ->
  is_pool e L P w -> p_type (wp w) = TYPE_POOL -> 0 < lamports_of L P ->
  exists w1 x, is_pool e L1 P w1 /\ p_type (wp w1) = TYPE_POOL /\ 0 < lamports_of L1 P /\ event_moves e ev L P d x /\
    total_on w1 d - sum_on e P d L1 = total_on w d - sum_on e P d L + x.
Proof.
  intros HL S Hd Hw Ht Hl. destruct (reached_ok e Henv _ _ HL) as (O & _ & H0). destruct S as [ts ms i L1 r Hts H64 Hi X|ts L1 Hts H64 X].
  - destruct (step_gap now ts ms i L L1 r w HL Hts Hi X Hd Hw Ht) as (w1 & x & A & B & C).
    destruct (exec_pool e Henv _ _ _ _ _ _ _ _ _ Hts O X Hw Ht) as (w2 & A2 & B2 & C2).
    assert (w2 = w1) as -> by exact (pool_fun e L1 P _ _ A2 A).
    exists w1, x. split; [exact A|]. split; [destruct B2 as [(_ & _ & _ & _ & _ & ->) _]; exact Ht|]. split; [lia|]. split; [exact B|exact C].
  - destruct (ext_pool e _ _ _ _ X Hw Hl) as [A B]. exists w, 0. split; [exact A|]. split; [exact Ht|]. split; [lia|]. split; [reflexivity|].
    unfold sum_on. rewrite (ext_minings_of e P HP L L1 X (reached_minings _ _ HL)). lia.
Qed.

Lemma drifts now L evs now' L' x : drift e P d now L evs now' L' x -> forall w, reached e now L -> day_start now' <= d ->
  is_pool e L P w -> p_type (wp w) = TYPE_POOL -> 0 < lamports_of L P ->
  exists w', is_pool e L' P w' /\ total_on w' d - sum_on e P d L' = total_on w d - sum_on e P d L + x.
Proof.
  intros D. induction D as [now L|now L ev L1 evs now' L' x y S M D IH]; intros w HL Hd Hw Ht Hl.
  - exists w. split; [exact Hw|lia].
  - assert (R : History.run e (time_of ev) L1 evs now' L') by (clear -D; induction D; econstructor; eassumption).
    pose proof (day_mono _ _ (run_mono _ _ _ _ _ R)) as Hm.
    destruct (step_drift now L ev L1 w HL S ltac:(lia) Hw Ht Hl) as (w1 & x1 & A & B & C & E & F).
    assert (x1 = x) as -> by (destruct ev; cbn [event_moves] in *; [eapply moves_fun; eassumption|congruence]).
    assert (HL1 : reached e (time_of ev) L1) by (eapply reached_run; [exact HL|econstructor; [exact S|constructor]]).
    destruct (IH w1 HL1 Hd A B C) as (w' & G & H). exists w'. split; [exact G|lia].
Qed.
Lemma has_drift now L evs now' L' : History.run e now L evs now' L' -> forall w, reached e now L -> day_start now' <= d ->
  is_pool e L P w -> p_type (wp w) = TYPE_POOL -> 0 < lamports_of L P ->
  exists x, drift e P d now L evs now' L' x.
Proof.
  intros R. induction R as [|now L ev L1 evs now' L' S R IH]; intros w HL Hd Hw Ht Hl; [exists 0; constructor|].
  pose proof (day_mono _ _ (run_mono _ _ _ _ _ R)) as Hm.
  destruct (step_drift now L ev L1 w HL S ltac:(lia) Hw Ht Hl) as (w1 & x & A & B & C & E & F).
  assert (HL1 : reached e (time_of ev) L1) by (eapply reached_run; [exact HL|econstructor; [exact S|constructor]]).
  destruct (IH w1 HL1 Hd A B C) as (y & D). exists (x + y). econstructor; eassumption.
Qed.

Lemma start_gap now ts ms f dd L L' r l' : reached e now L -> now <= ts -> ix_in_range (InitializePool f dd) ->
  exec e ts ms (InitializePool f dd) L = Ok (L', r) -> account_at ms 0 P -> lists_minings e L' P l' ->
  exists w', is_pool e L' P w' /\ p_type (wp w') = TYPE_POOL /\ gap w' l' d = - sum_on e P d L.
Proof.
  intros HL Hts Hi X HA Hl.
  pose proof (exec_effect e Henv _ _ _ _ _ _ _ HL Hts Hi X) as (q & mi & va & py & au & b & A & _ & _ & B).
  pose proof (only_allowed e Henv now ts ms _ L L' r HL Hts Hi X) as (q2 & mi2 & va2 & py2 & au2 & v & A2 & Hv & Hnt & _ & _ & _ & V & Py & Hne & _).
  assert (q = q2) as <- by exact (are_same _ _ _ A A2 0%nat _ _ eq_refl eq_refl).
  assert (va = va2) as <- by exact (are_same _ _ _ A A2 2%nat _ _ eq_refl eq_refl).
  assert (py = py2) as <- by exact (are_same _ _ _ A A2 3%nat _ _ eq_refl eq_refl).
  assert (q = P) as -> by exact (Changes.at_fun _ _ _ _ (are_at _ _ 0 _ A eq_refl) HA).
  assert (Hps : program_id e <> system_id) by apply Henv.
  eexists. split; [exact (now_pool _ _ _ _ _ _ B Hv)|]. split; [reflexivity|].
  destruct V as (_ & Vo & _). destruct Py as (_ & Po & _). destruct Hv as [Hvo Hvd].
  rewrite (gap_sum L' _ _ Hl), (sums_as _ _ _ B).
  - unfold total_on. cbn. lia.
  - cbn; repeat constructor; cbn; intuition congruence.
  - set (w0 := WPool _ _ _). unfold change_of. cbn [map zsum fst snd pool_now]. rewrite held_having, (held_other _ _ _ _ va) by congruence.
    destruct (held_pool e P d L P v w0 (conj Hvo Hvd)) as [-> ->]. unfold held, live. cbn. lia.
Qed.
End env.

(** ** C77 *)
Lemma gap_step : forall e, env_ok e -> forall P, P <> 0 -> forall d now ts ms i L L' r w l l',
  reached e now L -> now <= ts -> is_u64 ts -> ix_in_range i -> exec e ts ms i L = Ok (L', r) -> day_start ts <= d ->
  is_pool e L P w -> p_type (wp w) = TYPE_POOL -> lists_minings e L P l -> lists_minings e L' P l' ->
  exists w' x, is_pool e L' P w' /\ moves e ts ms i L P d x /\ gap w' l' d = gap w l d + x.
Proof.
  intros e Henv P HP d now ts ms i L L' r w l l' HL Hts _ Hi X Hd Hw Ht Hl Hl'.
  destruct (step_gap e Henv P HP d now ts ms i L L' r w HL Hts Hi X Hd Hw Ht) as (w' & x & A & B & C).
  exists w', x. rewrite (gap_sum e P d L _ _ Hl), (gap_sum e P d L' _ _ Hl'). auto.
Qed.
Lemma gap_run : forall e, env_ok e -> 0 < rent_min e MINING_LEN -> forall P, P <> 0 -> forall d now L evs now' L' w l l',
  reached e now L -> History.run e now L evs now' L' -> day_start now' <= d ->
  is_pool e L P w -> p_type (wp w) = TYPE_POOL -> 0 < lamports_of L P ->
  lists_minings e L P l -> lists_minings e L' P l' ->
  (exists x, drift e P d now L evs now' L' x) /\
  forall x, drift e P d now L evs now' L' x ->
    exists w', is_pool e L' P w' /\ gap w' l' d = gap w l d + x.
Proof.
  intros e Henv Hrent P HP d now L evs now' L' w l l' HL R Hd Hw Ht Hlam Hl Hl'. split.
  - exact (has_drift e Henv P HP d Hrent _ _ _ _ _ R w HL Hd Hw Ht Hlam).
  - intros x D. destruct (drifts e Henv P HP d Hrent _ _ _ _ _ _ D w HL Hd Hw Ht Hlam) as (w' & A & B).
    exists w'. rewrite (gap_sum e P d L _ _ Hl), (gap_sum e P d L' _ _ Hl'). auto.
Qed.
Lemma gap_start : forall e, env_ok e -> forall P d now ts ms f dd L L' r l l',
  reached e now L -> now <= ts -> ix_in_range (InitializePool f dd) ->
  exec e ts ms (InitializePool f dd) L = Ok (L', r) -> account_at ms 0 P ->
  lists_minings e L P l -> lists_minings e L' P l' ->
  exists w', is_pool e L' P w' /\ p_type (wp w') = TYPE_POOL /\ gap w' l' d = - count_on l d.
Proof.
  intros e Henv P d now ts ms f dd L L' r l l' HL Hts Hi X HA Hl Hl'.
  destruct (start_gap e Henv P d now ts ms f dd L L' r l' HL Hts Hi X HA Hl') as (w' & A & B & C).
  exists w'. split; [exact A|]. split; [exact B|]. rewrite C.
  pose proof (gap_sum e P d L w' l Hl) as G. unfold gap in G. lia.
Qed.
Lemma checked_no_stray : forall e, env_ok e -> env_inj e -> forall now ts ms i L L' r p k D m P x,
  reached e now L -> now <= ts -> ix_in_range i -> exec e ts ms i L = Ok (L', r) ->
  checks_delegate i -> account_at ms 0 p -> account_at ms 1 k -> account_at ms (delegate_at i) D ->
  is_mining e L D m -> m_type (wm m) = TYPE_MINING -> stray L p P k D x = 0.
Proof.
  intros e Henv Hinj now ts ms i L L' r p k D m P x HL Hts Hi X Hc Hp Hk HD Hm Ht.
  unfold stray. destruct (Z.eqb_spec D k) as [|Hne]; [reflexivity|].
  rewrite (of_pool_mining e P L D m Hm).
  assert (m_pool (wm m) = p) as ->; [|destruct (_ =? _); lia].
  destruct (reached_ok e Henv _ _ HL) as (_ & HA & _).
  assert (exists wallet dl, checked_delegate e L k D p wallet dl) as (wl & dl & [Hdp Hcd]).
  { pose proof (only_allowed e Henv now ts ms i L L' r HL Hts Hi X) as A.
    destruct i; try contradiction; cbn [allowed delegate_at] in *.
    - destruct A as (q & k' & a & D' & w & m' & dl & A & _ & Hd & _).
      assert (q = p) as -> by exact (Changes.at_fun _ _ _ _ (are_at _ _ 0 _ A eq_refl) Hp).
      assert (k' = k) as -> by exact (Changes.at_fun _ _ _ _ (are_at _ _ 1 _ A eq_refl) Hk).
      assert (D' = D) as -> by exact (Changes.at_fun _ _ _ _ (are_at _ _ 3 _ A eq_refl) HD). eauto.
    - destruct A as (q & k' & a & D' & w & m' & dl & A & _ & Hd & _).
      assert (q = p) as -> by exact (Changes.at_fun _ _ _ _ (are_at _ _ 0 _ A eq_refl) Hp).
      assert (k' = k) as -> by exact (Changes.at_fun _ _ _ _ (are_at _ _ 1 _ A eq_refl) Hk).
      assert (D' = D) as -> by exact (Changes.at_fun _ _ _ _ (are_at _ _ 3 _ A eq_refl) HD). eauto.
    - destruct A as (q & k' & a & D' & w & m' & dl & A & _ & Hd & _).
      assert (q = p) as -> by exact (Changes.at_fun _ _ _ _ (are_at _ _ 0 _ A eq_refl) Hp).
      assert (k' = k) as -> by exact (Changes.at_fun _ _ _ _ (are_at _ _ 1 _ A eq_refl) Hk).
      assert (D' = D) as -> by exact (Changes.at_fun _ _ _ _ (are_at _ _ 3 _ A eq_refl) HD). eauto.
    - destruct A as (q & k' & a & ow & Od & D' & w & m' & ol & dl & A & _ & _ & _ & _ & Hd & _).
      assert (q = p) as -> by exact (Changes.at_fun _ _ _ _ (are_at _ _ 0 _ A eq_refl) Hp).
      assert (k' = k) as -> by exact (Changes.at_fun _ _ _ _ (are_at _ _ 1 _ A eq_refl) Hk).
      assert (D' = D) as -> by exact (Changes.at_fun _ _ _ _ (are_at _ _ 5 _ A eq_refl) HD). eauto. }
  destruct Hdp as [[-> _]|(_ & y & Hy & ->)]; [contradiction|].
  assert (y = m) as -> by exact (mining_fun e L D _ _ Hy Hm).
  destruct (ei_mining _ Hinj _ _ _ _ _ _ _ (HA D m Hm Ht) Hcd) as (_ & -> & _). reflexivity.
Qed.
Lemma gap_distribution : forall e, env_ok e -> forall P now ts ms L L' r w l,
  reached e now L -> now <= ts -> exec e ts ms DistributeRewards L = Ok (L', r) -> account_at ms 0 P ->
  is_pool e L P w -> lists_minings e L P l -> ~ has_date (day_start ts) (wp_ci w) ->
  exists w' rem, is_pool e L' P w' /\
    let part := daily_part (p_avail (wp w)) (p_ends_at (wp w)) ts in
    let inc := p_index (wp w') - p_index (wp w) in
    p_avail (wp w') = p_avail (wp w) - part /\
    inc * count_on l (day_start ts) + inc * gap w l (day_start ts) + rem = 10000000000000000 * part /\
    0 <= rem < count_on l (day_start ts) + gap w l (day_start ts).
Proof.
  intros e Henv P now ts ms L L' r w l HL Hts X HA Hw Hl Hn.
  pose proof (only_allowed e Henv now ts ms DistributeRewards L L' r HL Hts I X) as (q2 & a2 & v2 & A2 & Hv2 & _ & _ & (_ & _ & [Hh|[Hpos _]])).
  all: assert (q2 = P) as -> by exact (Changes.at_fun _ _ _ _ (are_at _ _ 0 _ A2 eq_refl) HA).
  all: assert (v2 = w) as -> by exact (pool_fun e L P _ _ Hv2 Hw).
  { contradiction. }
  pose proof (exec_effect e Henv now ts ms DistributeRewards L L' r HL Hts I X) as (q & au & v & w' & A & Hv & E & _ & B).
  assert (q = P) as -> by exact (Changes.at_fun _ _ _ _ (are_at _ _ 0 _ A eq_refl) HA).
  assert (v = w) as -> by exact (pool_fun e L P _ _ Hv Hw).
  destruct E as (_ & T & _ & _ & E). destruct (E Hn) as (E1 & E2 & _).
  set (part := daily_part _ _ _) in *.
  exists w', ((10000000000000000 * part) mod p_total (wp w')). split; [exact (now_pool e _ _ _ _ _ _ B Hv)|]. cbv zeta.
  split; [exact E2|].
  assert (G : count_on l (day_start ts) + gap w l (day_start ts) = p_total (wp w')).
  { unfold gap, total_on. rewrite T. lia. }
  pose proof (Z.div_mod (10000000000000000 * part) (p_total (wp w')) ltac:(lia)) as M.
  pose proof (Z.mod_pos_bound (10000000000000000 * part) (p_total (wp w')) ltac:(lia)) as Mb.
  rewrite E1. split; [|lia].
  replace (p_index (wp w) + 10000000000000000 * part / p_total (wp w') - p_index (wp w)) with (10000000000000000 * part / p_total (wp w')) by lia.
  set (i := 10000000000000000 * part / p_total (wp w')) in *. rewrite <- Z.mul_add_distr_l, G. lia.
Qed.
