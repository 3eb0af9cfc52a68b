(** Proofs for claims C64 and C65: the model does the same on other dates and under other keys. *)
From stdpp Require Import gmap.
From Verif Require Import Base OMap State Ledger Program ResLemmas LedgerLemmas CodecLemmas WfLemmas History HistoryLemmas MoveSpec.

(** ** Results *)
Definition rmap {A B} (g : A -> B) (x : res A) : res B := match x with Ok a => Ok (g a) | Err er => Err er end.
Lemma bind_move {A A' B B'} (x : res A) (x' : res A') (g : A -> A') (k : A -> res B) (k' : A' -> res B') (h : B -> B') :
  x' = rmap g x -> (forall a, x = Ok a -> k' (g a) = rmap h (k a)) -> rbind x' k' = rmap h (rbind x k).
Proof. intros -> H. destruct x; cbn; [apply H; reflexivity|reflexivity]. Qed.
Lemma bind_same {A B B'} (x : res A) (k : A -> res B) (k' : A -> res B') (h : B -> B') :
  (forall a, x = Ok a -> k' a = rmap h (k a)) -> rbind x k' = rmap h (rbind x k).
Proof. intros H. destruct x; cbn; [apply H; reflexivity|reflexivity]. Qed.
Lemma bind_eq {A B B'} (x x' : res A) (k : A -> res B) (k' : A -> res B') (h : B -> B') :
  x' = x -> (forall a, x = Ok a -> k' a = rmap h (k a)) -> rbind x' k' = rmap h (rbind x k).
Proof. intros ->. apply bind_same. Qed.

Section move.
Context (f : pubkey -> pubkey) (d : Z) (Hf : renaming f) (Hd : whole_days d).
Local Notation ms_ := (move_sched d).
Local Notation mw_ := (move_wpool f d).
Local Notation mm_ := (move_wmining f d).

Lemma bod_move x : bod (x + d) = bod x + d.
Proof.
  destruct Hd as [_ H]. unfold bod, DAY. apply Z.div_exact in H; [|lia]. rewrite H.
  rewrite Z.mul_comm, Z_mod_plus_full. lia.
Qed.
Lemma bod_bounds x : bod x <= x < bod x + 86400.
Proof. unfold bod, DAY. pose proof (Z.mod_pos_bound x 86400 eq_refl). lia. Qed.
Lemma key_eq a b : (f a =? f b) = (a =? b).
Proof.
  destruct (Z.eqb_spec a b) as [->|H]; [apply Z.eqb_refl|]. apply Z.eqb_neq. intros E. apply H. apply (rn_inj f Hf). exact E.
Qed.
Lemma key_zero a : (f a =? 0) = (a =? 0).
Proof. rewrite <- (rn_system f Hf) at 1. apply key_eq. Qed.

(** ** Trees *)
Lemma ms_cons a v r : ms_ ((a, v) :: r) = (a + d, v) :: ms_ r.
Proof. reflexivity. Qed.
Lemma get_move k t : oget (k + d) (ms_ t) = oget k t.
Proof.
  induction t as [|[a v] r IH]; [reflexivity|]. rewrite ms_cons. cbn [oget]. rewrite IH.
  destruct (Z.eqb_spec a k), (Z.eqb_spec (a + d) (k + d)); try lia; reflexivity.
Qed.
Lemma has_move k t : ohas (k + d) (ms_ t) = ohas k t.
Proof. unfold ohas. rewrite get_move. reflexivity. Qed.
Lemma put_move k v t : oput (k + d) v (ms_ t) = ms_ (oput k v t).
Proof.
  induction t as [|[a x] r IH]; [reflexivity|]. rewrite ms_cons. cbn [oput].
  destruct (Z.ltb_spec k a), (Z.ltb_spec (k + d) (a + d)); try lia; [reflexivity|].
  destruct (Z.eqb_spec a k), (Z.eqb_spec (a + d) (k + d)); try lia; rewrite ?ms_cons, ?IH; reflexivity.
Qed.
Lemma len_move t : length (ms_ t) = length t.
Proof. apply map_length. Qed.
Lemma insert_move c k v t : oinsert c (k + d) v (ms_ t) = ms_ (oinsert c k v t).
Proof. unfold oinsert. rewrite has_move, put_move, len_move. destruct (ohas k t); [reflexivity|]. destruct (_ <? _); reflexivity. Qed.
Lemma remove_move k t : oremove (k + d) (ms_ t) = ms_ (oremove k t).
Proof.
  induction t as [|[a x] r IH]; [reflexivity|]. rewrite ms_cons. cbn [oremove].
  destruct (Z.eqb_spec a k), (Z.eqb_spec (a + d) (k + d)); try lia; rewrite ?ms_cons, ?IH; reflexivity.
Qed.
Lemma removes_move ds : forall t, remove_dates (map (fun x => x + d) ds) (ms_ t) = ms_ (remove_dates ds t).
Proof. unfold remove_dates. induction ds as [|x ds IH]; intros t; [reflexivity|]. cbn. rewrite remove_move. apply IH. Qed.
Lemma find_move k t : find_lt (k + d) (ms_ t) = find_lt k t.
Proof.
  induction t as [|[a x] r IH]; [reflexivity|]. rewrite ms_cons. cbn [find_lt]. rewrite IH.
  destruct (Z.ltb_spec a k), (Z.ltb_spec (a + d) (k + d)); try lia; reflexivity.
Qed.

(** ** Minings *)
Lemma update_move ci x s u i : mining_update_index (ms_ ci) (x + d) s u i = mining_update_index ci x s u i.
Proof. unfold mining_update_index. rewrite find_move. reflexivity. Qed.
Lemma mloop_move ci b l : forall s u i,
  mining_consume_loop (ms_ ci) (b + d) (ms_ l) s u i =
  rmap (fun r => match r with (a, b, c, ds) => (a, b, c, map (fun x => x + d) ds) end) (mining_consume_loop ci b l s u i).
Proof.
  induction l as [|[x v] r IH]; intros s u i; [reflexivity|]. rewrite ms_cons. cbn [mining_consume_loop].
  destruct (Z.ltb_spec b x), (Z.ltb_spec (b + d) (x + d)); try lia; [reflexivity|].
  rewrite update_move. apply bind_same. intros [u' i'] _. apply bind_same. intros s' _.
  eapply bind_move; [apply IH|]. intros [[[a1 a2] a3] ds] _. reflexivity.
Qed.
Lemma mconsume_move ci b s u i t :
  mining_consume (b + d) s (ms_ ci) u i (ms_ t) =
  rmap (fun r => match r with (a, b, c, t) => (a, b, c, ms_ t) end) (mining_consume b s ci u i t).
Proof.
  unfold mining_consume. eapply bind_move; [apply mloop_move|]. intros [[[a1 a2] a3] ds] _. cbn. rewrite removes_move. reflexivity.
Qed.
Lemma refresh_move ts ci m : refresh (ts + d) (ms_ ci) (mm_ m) = rmap mm_ (refresh ts ci m).
Proof.
  unfold refresh. cbn [move_wmining wm wm_diffs move_mining m_share m_sfo m_unclaimed m_index]. rewrite bod_move.
  apply bind_same. intros s _. eapply bind_move; [apply mconsume_move|]. intros [[[a1 a2] a3] t] _.
  rewrite update_move. apply bind_same. intros [u i] _. apply bind_same. intros s2 _. reflexivity.
Qed.
Lemma dloop_move l : forall x, decrease_loop x (ms_ l) = rmap ms_ (decrease_loop x l).
Proof.
  induction l as [|[k v] r IH]; intros x; [reflexivity|]. rewrite ms_cons. cbn [decrease_loop].
  destruct (x <=? v); apply bind_same; intros v' _; [reflexivity|]. eapply bind_move; [apply IH|]. intros t _. reflexivity.
Qed.
Lemma decrease_move x m : decrease_rewards x (mm_ m) = rmap mm_ (decrease_rewards x m).
Proof.
  unfold decrease_rewards. cbn [move_wmining wm wm_diffs move_mining m_share].
  destruct (x =? 0); [reflexivity|]. destruct (_ <? x); [reflexivity|]. apply bind_same. intros s _.
  unfold move_sched at 1. rewrite <- map_rev. eapply bind_move; [apply dloop_move|]. intros t _.
  cbn [rmap]. f_equal. unfold move_wmining, move_sched. cbn. rewrite <- map_rev. reflexivity.
Qed.

(** ** Pools *)
Lemma ploop_move b l : forall s,
  pool_consume_loop (b + d) (ms_ l) s = rmap (fun r => (fst r, map (fun x => x + d) (snd r))) (pool_consume_loop b l s).
Proof.
  induction l as [|[x v] r IH]; intros s; [reflexivity|]. rewrite ms_cons. cbn [pool_consume_loop].
  destruct (Z.ltb_spec b x), (Z.ltb_spec (b + d) (x + d)); try lia; [reflexivity|].
  apply bind_same. intros s' _. eapply bind_move; [apply IH|]. intros [a ds] _. reflexivity.
Qed.
Lemma pconsume_move b s t : pool_consume (b + d) s (ms_ t) = rmap (fun r => (fst r, ms_ (snd r))) (pool_consume b s t).
Proof. unfold pool_consume. eapply bind_move; [apply ploop_move|]. intros [a ds] _. cbn. rewrite removes_move. reflexivity. Qed.
Lemma pindex_move ci i r s x :
  pool_update_index (ms_ ci) i r s (x + d) = rmap (fun r => (ms_ (fst r), snd r)) (pool_update_index ci i r s x).
Proof. unfold pool_update_index. do 3 (apply bind_same; intros ? _). cbn. rewrite insert_move. reflexivity. Qed.
Lemma distribute_move ts r w : distribute (ts + d) r (mw_ w) = rmap mw_ (distribute ts r w).
Proof.
  unfold distribute. cbn [move_wpool wp wp_diffs wp_ci move_pool p_total]. rewrite bod_move.
  apply bind_same. intros _ _. eapply bind_move; [apply pconsume_move|]. intros [t ds] _. cbn [fst snd]. rewrite has_move.
  destruct (ohas _ _); [reflexivity|]. cbn [set_total p_index p_total p_avail move_pool].
  eapply bind_move; [apply pindex_move|]. intros [ci i] _. cbn [fst snd]. apply bind_same. intros a _. reflexivity.
Qed.
Lemma rewards_move ts p : 0 <= ts -> rewards_to_distribute (ts + d) (move_pool f d p) = rewards_to_distribute ts p.
Proof.
  intros Hts. unfold rewards_to_distribute. cbn [move_pool p_ends_at p_avail].
  assert (saturating_sub (move_end d (p_ends_at p)) (ts + d) = saturating_sub (p_ends_at p) ts) as ->; [|reflexivity].
  destruct Hd as [Hd0 _]. unfold saturating_sub, move_end. destruct (Z.ltb_spec 0 (p_ends_at p)).
  - destruct (Z.leb_spec (ts + d) (p_ends_at p + d)), (Z.leb_spec ts (p_ends_at p)); lia.
  - destruct (Z.leb_spec (ts + d) (p_ends_at p)), (Z.leb_spec ts (p_ends_at p)); lia.
Qed.
Lemma modify_move t x v : modify_diffs (ms_ t) (x + d) v = rmap ms_ (modify_diffs t x v).
Proof.
  unfold modify_diffs. rewrite get_move. destruct (oget x t); [|reflexivity]. apply bind_same. intros v' _. cbn. rewrite put_move. reflexivity.
Qed.
Definition dm_ (g : dlg) : dlg := option_map (rmap mm_) g.
Lemma dadd_move ts a ci t g :
  delegate_add (ts + d) a (ms_ ci) t (dm_ g) = rmap (fun r => (fst r, option_map mm_ (snd r))) (delegate_add ts a ci t g).
Proof.
  destruct g as [g|]; [|reflexivity]. cbn [dm_ option_map delegate_add]. eapply bind_move; [reflexivity|]. intros m _.
  cbn [move_wmining wm wm_diffs move_mining m_sfo]. apply bind_same. intros sf _. apply bind_same. intros t' _.
  eapply bind_move; [exact (refresh_move ts ci (WMining (set_sfo (wm m) sf) (wm_diffs m)))|]. intros m' _. reflexivity.
Qed.
Lemma dsub_move ts a ci t g :
  delegate_sub (ts + d) a (ms_ ci) t (dm_ g) = rmap (fun r => (fst r, option_map mm_ (snd r))) (delegate_sub ts a ci t g).
Proof.
  destruct g as [g|]; [|reflexivity]. cbn [dm_ option_map delegate_sub]. eapply bind_move; [reflexivity|]. intros m _.
  cbn [move_wmining wm wm_diffs move_mining m_sfo]. apply bind_same. intros sf _. apply bind_same. intros t' _.
  eapply bind_move; [exact (refresh_move ts ci (WMining (set_sfo (wm m) sf) (wm_diffs m)))|]. intros m' _. reflexivity.
Qed.
Lemma change_move ts w m n o a :
  change_delegate (ts + d) (mw_ w) (mm_ m) (dm_ n) (dm_ o) a =
  rmap (fun r => match r with (w, m, x, y) => (mw_ w, mm_ m, option_map mm_ x, option_map mm_ y) end) (change_delegate ts w m n o a).
Proof.
  unfold change_delegate. cbn [move_wpool wp wp_ci]. eapply bind_move; [apply refresh_move|]. intros m1 _.
  eapply bind_move; [apply dsub_move|]. intros [t1 x] _. cbn [fst snd].
  eapply bind_move; [apply dadd_move|]. intros [t2 y] _. reflexivity.
Qed.
Lemma addm_move t x v : add_mining_diff (ms_ t) (x + d) v = rmap ms_ (add_mining_diff t x v).
Proof.
  unfold add_mining_diff. rewrite get_move. destruct (oget x t); [apply bind_same; intros v' _|]; cbn; rewrite ?put_move, ?insert_move; reflexivity.
Qed.
Lemma addp_move t x v : add_pool_diff (ms_ t) (x + d) v = rmap ms_ (add_pool_diff t x v).
Proof. unfold add_pool_diff. rewrite get_move. apply bind_same; intros v' _. cbn. rewrite insert_move. reflexivity. Qed.
Lemma end_move p ts : d = 0 \/ movable d ts -> end_timestamp p (ts + d) = rmap (fun x => x + d) (end_timestamp p ts).
Proof.
  intros H. destruct Hd as [Hd0 _]. pose proof (bod_bounds ts). unfold movable in H.
  assert (G : forall n, 0 <= n <= 365 -> plain_add64 (bod (ts + d)) (DAY * n) = rmap (fun x => x + d) (plain_add64 (bod ts) (DAY * n))).
  { intros n Hn. rewrite bod_move. unfold plain_add64, DAY, U64.
    destruct (Z.ltb_spec (bod ts + 86400 * n) 18446744073709551616), (Z.ltb_spec (bod ts + d + 86400 * n) 18446744073709551616); try lia; cbn; [f_equal; lia|reflexivity]. }
  destruct p; cbn [end_timestamp]; [reflexivity|apply G; lia..].
Qed.
Lemma deposit_move ts w m a p g : d = 0 \/ movable d ts ->
  deposit (ts + d) (mw_ w) (mm_ m) a p (dm_ g) =
  rmap (fun r => match r with (w, m, x) => (mw_ w, mm_ m, option_map mm_ x) end) (deposit ts w m a p g).
Proof.
  intros Hts. unfold deposit. cbn [move_wpool wp wp_ci wp_diffs move_pool p_total]. eapply bind_move; [apply refresh_move|]. intros m1 _.
  do 4 (apply bind_same; intros ? _). cbn [move_wmining wm move_mining m_share]. apply bind_same. intros s _.
  eapply bind_move; [apply end_move; exact Hts|]. intros x _.
  eapply bind_move; [apply addp_move|]. intros tp _. eapply bind_move; [apply addm_move|]. intros tm _.
  eapply bind_move; [apply dadd_move|]. intros [t1 y] _. reflexivity.
Qed.
Lemma withdraw_move ts w m a g :
  withdraw (ts + d) (mw_ w) (mm_ m) a (dm_ g) =
  rmap (fun r => match r with (w, m, x) => (mw_ w, mm_ m, option_map mm_ x) end) (withdraw ts w m a g).
Proof.
  unfold withdraw. cbn [move_wpool wp wp_ci wp_diffs move_pool p_total]. eapply bind_move; [apply refresh_move|]. intros m1 _.
  apply bind_same; intros ? _. cbn [move_wmining wm move_mining m_share]. apply bind_same. intros s _.
  rewrite bod_move. eapply bind_move; [apply pconsume_move|]. intros [t1 tp] _. cbn [fst snd].
  eapply bind_move; [apply dsub_move|]. intros [t2 y] _. reflexivity.
Qed.
Lemma slash_move ts w m n a x :
  slash (ts + d) (mw_ w) (mm_ m) n a (option_map (fun y => y + d) x) =
  rmap (fun r => (mw_ (fst r), mm_ (snd r))) (slash ts w m n a x).
Proof.
  unfold slash. eapply bind_move; [exact (withdraw_move ts w m a None)|]. intros [[w1 m1] g] _.
  destruct x as [x|]; [|reflexivity]. cbn [option_map]. rewrite bod_move. apply bind_same. intros v _.
  cbn [move_wmining wm_diffs]. eapply bind_move; [apply modify_move|]. intros tm _.
  cbn [move_wpool wp_diffs]. eapply bind_move; [apply modify_move|]. intros tp _. reflexivity.
Qed.
Lemma extend_move ts w m p q s b a g : 0 <= ts -> (d = 0 \/ movable d ts) -> (d = 0 \/ movable d s) ->
  extend (ts + d) (mw_ w) (mm_ m) p q (s + d) b a (dm_ g) =
  rmap (fun r => match r with (w, m, x) => (mw_ w, mm_ m, option_map mm_ x) end) (extend ts w m p q s b a g).
Proof.
  intros H0 Hts Hs. unfold extend. cbn [move_wpool wp wp_ci move_pool p_total].
  eapply bind_move; [apply refresh_move|]. intros m1 _.
  apply (bind_move _ _ (fun x => if lockup_eqb p LFlex then x else x + d)).
  { destruct (lockup_eqb p LFlex); [reflexivity|]. apply end_move. exact Hs. }
  intros x Hx. apply bind_same. intros fl _.
  assert (E : (ts + d <? (if lockup_eqb p LFlex then x else x + d)) = (ts <? x)).
  { destruct (lockup_eqb p LFlex).
    - injection Hx as <-. destruct Hd. destruct (Z.ltb_spec (ts + d) 0), (Z.ltb_spec ts 0); try lia; reflexivity.
    - destruct (Z.ltb_spec (ts + d) (x + d)), (Z.ltb_spec ts x); try lia; reflexivity. }
  rewrite E. apply (bind_move _ _ (fun r => (mm_ (fst r), snd r))).
  { destruct (Z.ltb_spec ts x) as [Hlt|_].
    - destruct (lockup_eqb p LFlex); [injection Hx as <-; lia|].
      apply bind_same. intros c _. apply bind_same. intros df _. cbn [move_wmining wm wm_diffs].
      eapply bind_move; [apply modify_move|]. intros tm _. cbn [move_mining m_share].
      do 2 (apply bind_same; intros ? _). reflexivity.
    - cbn [move_wmining wm wm_diffs move_mining m_share]. do 2 (apply bind_same; intros ? _). reflexivity. }
  intros [m2 t] _. cbn [fst snd]. apply bind_same. intros am _.
  eapply bind_move; [apply dsub_move|]. intros [t1 y] _. cbn [fst snd].
  assert (set_wtotal (mw_ w) t1 = mw_ (set_wtotal w t1)) as E1 by reflexivity. fold (mw_ w).
  change (WPool (move_pool f d (wp w)) (ms_ (wp_diffs w)) (ms_ (wp_ci w))) with (mw_ w). rewrite E1.
  destruct y as [y|]; [exact (deposit_move ts (set_wtotal w t1) m2 am q (Some (Ok y)) Hts)|exact (deposit_move ts (set_wtotal w t1) m2 am q None Hts)].
Qed.
Lemma fill_move ts r x w : (d = 0 \/ 0 <= p_ends_at (wp w)) ->
  (d = 0 \/ 86400 <= ts /\ x + d < 18446744073709551616) ->
  fill_pool (ts + d) r (x + d) (mw_ w) = rmap mw_ (fill_pool ts r x w).
Proof.
  intros He H. destruct Hd as [Hd0 _]. unfold fill_pool. rewrite !bod_move. cbn [move_wpool wp wp_diffs wp_ci move_pool p_ends_at p_avail].
  pose proof (bod_bounds ts). pose proof (bod_bounds x).
  assert ((bod x + d <? bod ts + d) = (bod x <? bod ts)) as ->.
  { destruct (Z.ltb_spec (bod x + d) (bod ts + d)), (Z.ltb_spec (bod x) (bod ts)); lia. }
  apply bind_same. intros u0 Hc. apply ensure_ok in Hc. clear u0.
  assert (Hpos : d = 0 \/ 0 < bod x) by lia.
  destruct (Z.eq_dec d 0) as [E0|Hne].
  - assert (E : forall z, move_end d z = z) by (intros z; unfold move_end; rewrite E0, Z.add_0_r; destruct (0 <? z); reflexivity).
    rewrite E0 in E |- *. rewrite E, Z.add_0_r. do 3 (apply bind_same; intros ? _). cbn [rmap]. f_equal. unfold move_wpool. cbn [wp wp_diffs wp_ci].
    unfold move_pool, set_avail, set_ends. cbn [p_deposit_auth p_distribute_auth p_fill_auth p_mint p_index p_total p_ends_at p_avail p_bump p_type]. rewrite E. reflexivity.
  - assert (Hp : 0 < bod x) by lia. unfold move_end. destruct (Z.ltb_spec 0 (p_ends_at (wp w))).
    + apply bind_eq.
      { unfold safe_sub. destruct (Z.leb_spec (p_ends_at (wp w)) (bod x)), (Z.leb_spec (p_ends_at (wp w) + d) (bod x + d)); try lia; [f_equal; lia|reflexivity]. }
      intros df Hdf. apply safe_sub_ok in Hdf as [Hle ->]. apply (bind_move _ _ (fun z => z + d)).
      { unfold safe_add64, U64. destruct (Z.ltb_spec (p_ends_at (wp w) + d + (bod x - p_ends_at (wp w))) 18446744073709551616),
          (Z.ltb_spec (p_ends_at (wp w) + (bod x - p_ends_at (wp w))) 18446744073709551616); try lia; cbn; f_equal; lia. }
      intros z Hz. apply safe_add64_ok in Hz as [_ ->]. apply bind_same. intros av _. cbn [rmap]. f_equal.
      unfold move_wpool, move_pool, set_avail, set_ends, move_end. cbn. destruct (Z.ltb_spec 0 (p_ends_at (wp w) + (bod x - p_ends_at (wp w)))); [reflexivity|lia].
    + assert (p_ends_at (wp w) = 0) as -> by lia. apply (bind_move _ _ (fun z => z + d)).
      { unfold safe_sub. destruct (Z.leb_spec 0 (bod x)), (Z.leb_spec 0 (bod x + d)); try lia; cbn; f_equal; lia. }
      intros df Hdf. apply safe_sub_ok in Hdf as [Hle ->]. apply (bind_move _ _ (fun z => z + d)).
      { unfold safe_add64, U64. destruct (Z.ltb_spec (0 + (bod x - 0 + d)) 18446744073709551616),
          (Z.ltb_spec (0 + (bod x - 0)) 18446744073709551616); try lia; cbn; f_equal; lia. }
      intros z Hz. apply safe_add64_ok in Hz as [_ ->]. apply bind_same. intros av _. cbn [rmap]. f_equal.
      unfold move_wpool, move_pool, set_avail, set_ends, move_end. cbn. destruct (Z.ltb_spec 0 (0 + (bod x - 0))); [reflexivity|lia].
Qed.

(** ** Accounts *)
Local Notation ml_ := (move_ledger f d).
Local Notation ma_ := (move_account f d).
Local Notation md_ := (move_data f d).
Local Notation mt_ := (map (move_meta f)).

#[local] Instance f_inj : Inj (=) (=) f.
Proof. exact (rn_inj f Hf). Qed.

Lemma empty_move : ma_ empty_account = empty_account.
Proof. unfold move_account, empty_account, system_id. cbn. rewrite (rn_system f Hf). reflexivity. Qed.
Lemma acc_move L k : acc (ml_ L) (f k) = ma_ (acc L k).
Proof.
  unfold acc, move_ledger, ledger, pubkey in *. rewrite (lookup_kmap (M1 := gmap Z) (M2 := gmap Z) f), lookup_fmap.
  destruct (L !! k); [reflexivity|]. symmetry. exact empty_move.
Qed.
Lemma acc_outside L k : (forall q, k <> f q) -> acc (ml_ L) k = empty_account.
Proof.
  intros H. unfold acc, move_ledger, ledger, pubkey in *.
  destruct (kmap f (ma_ <$> L) !! k) as [a|] eqn:E; [|reflexivity].
  apply (lookup_kmap_Some (M1 := gmap Z) (M2 := gmap Z) f) in E as (q & -> & _). destruct (H q). reflexivity.
Qed.
Lemma ins_move L k a : <[f k := ma_ a]> (ml_ L) = ml_ (<[k := a]> L).
Proof.
  unfold move_ledger, ledger, pubkey in *. rewrite fmap_insert, (kmap_insert (M1 := gmap Z) (M2 := gmap Z) f). reflexivity.
Qed.
Lemma put_data_move L k x : put_data (ml_ L) (f k) (md_ x) = ml_ (put_data L k x).
Proof. unfold put_data. rewrite acc_move, <- ins_move. reflexivity. Qed.
Lemma put_pool_move L k x : put_pool (ml_ L) (f k) (mw_ x) = ml_ (put_pool L k x).
Proof. exact (put_data_move L k (DPool x)). Qed.
Lemma put_mining_move L k x : put_mining (ml_ L) (f k) (mm_ x) = ml_ (put_mining L k x).
Proof. exact (put_data_move L k (DMining x)). Qed.
Lemma put_dlg_move L k x : put_dlg (ml_ L) (f k) (option_map mm_ x) = ml_ (put_dlg L k x).
Proof. destruct x as [x|]; [exact (put_mining_move L k x)|reflexivity]. Qed.
Lemma put_lam_move L k x : put_lamports (ml_ L) (f k) x = ml_ (put_lamports L k x).
Proof. unfold put_lamports. rewrite acc_move, <- ins_move. reflexivity. Qed.

Lemma len_data_move x : data_len (md_ x) = data_len x.
Proof. destruct x; reflexivity. Qed.
Lemma nil_move t : tmap_eqb (ms_ t) [] = tmap_eqb t [].
Proof. destruct t as [|[a v] r]; reflexivity. Qed.
Lemma end_zero x : (move_end d x =? 0) = (x =? 0).
Proof. destruct Hd. unfold move_end. destruct (Z.ltb_spec 0 x), (Z.eqb_spec x 0); try lia; apply Z.eqb_neq; lia. Qed.
Lemma zero_move x : all_zero (md_ x) = all_zero x.
Proof.
  destruct x as [| |[[x1 x2 x3 x4 x5 x6 x7 x8 x9 x10] y z]|[[x1 x2 x3 x4 x5 x6 x7 x8 x9] y]| | |]; try reflexivity;
    cbn [move_data move_wpool move_wmining wp wm wp_diffs wp_ci wm_diffs move_pool move_mining all_zero
    p_deposit_auth p_distribute_auth p_fill_auth p_mint p_index p_total p_ends_at p_avail p_bump p_type
    m_pool m_owner m_mint m_index m_share m_unclaimed m_sfo m_bump m_type];
    rewrite !key_zero, ?end_zero, ?nil_move; reflexivity.
Qed.
Lemma zeros_move n : md_ (zeros n) = zeros n.
Proof.
  unfold zeros. destruct (n =? 0); [reflexivity|]. destruct (n =? MINING_LEN); [|destruct (n =? POOL_LEN); [|reflexivity]].
  - cbn. unfold move_wmining, move_mining, zero_wmining. cbn. rewrite !(rn_system f Hf). reflexivity.
  - cbn. unfold move_wpool, move_pool, zero_wpool. cbn. rewrite !(rn_system f Hf). reflexivity.
Qed.
Lemma load_mining_move x : load_mining (md_ x) = rmap mm_ (load_mining x).
Proof. destruct x; cbn; try reflexivity; destruct (_ <? _); reflexivity. Qed.
Lemma load_pool_move x : load_pool (md_ x) = rmap mw_ (load_pool x).
Proof. destruct x; cbn; try reflexivity; destruct (_ <? _); reflexivity. Qed.
Lemma load_token_move x : load_token (md_ x) = rmap (move_token f) (load_token x).
Proof. destruct x; reflexivity. Qed.

(** equal accounts stay equal, different ones different *)
Lemma sched_inj t t' : ms_ t = ms_ t' -> t = t'.
Proof.
  revert t'. induction t as [|[a v] r IH]; intros [|[b v'] r'] H; try discriminate H; [reflexivity|].
  rewrite !ms_cons in H. injection H as H1 -> H2. apply IH in H2 as ->. f_equal. f_equal. lia.
Qed.
Lemma end_inj x y : move_end d x = move_end d y -> x = y.
Proof. destruct Hd. unfold move_end. destruct (Z.ltb_spec 0 x), (Z.ltb_spec 0 y); lia. Qed.
Lemma data_inj x y : md_ x = md_ y -> x = y.
Proof.
  pose proof (rn_inj f Hf) as I.
  destruct x as [| |[[x1 x2 x3 x4 x5 x6 x7 x8 x9 x10] x11 x12]|[[x1 x2 x3 x4 x5 x6 x7 x8 x9] x10]|[x1 x2 x3]| |],
    y as [| |[[y1 y2 y3 y4 y5 y6 y7 y8 y9 y10] y11 y12]|[[y1 y2 y3 y4 y5 y6 y7 y8 y9] y10]|[y1 y2 y3]| |]; intros H; try discriminate H; try exact H.
  - unfold move_data, move_wpool, move_pool in H. cbn [wp wp_diffs wp_ci p_deposit_auth p_distribute_auth p_fill_auth p_mint p_index p_total p_ends_at p_avail p_bump p_type] in H.
    injection H as ? ? ? ? ? ? HE ? ? ? HS HC. apply end_inj in HE. apply sched_inj in HS, HC. f_equal. f_equal; [f_equal|..]; auto.
  - unfold move_data, move_wmining, move_mining in H. cbn [wm wm_diffs m_pool m_owner m_mint m_index m_share m_unclaimed m_sfo m_bump m_type] in H.
    injection H as ? ? ? ? ? ? ? ? ? HS. apply sched_inj in HS. f_equal. f_equal; [f_equal|..]; auto.
  - unfold move_data, move_token in H. cbn [t_mint t_owner t_amount] in H. injection H as ? ? ?. f_equal. f_equal; auto.
Qed.
Lemma account_inj a b : ma_ a = ma_ b -> a = b.
Proof.
  destruct a, b. intros H. unfold move_account in H. cbn in H. injection H as ? H1 H2. apply data_inj in H2. apply (rn_inj f Hf) in H1. congruence.
Qed.

(** ** Loaders and callees *)
Lemma signer_move ms k : is_signer (mt_ ms) (f k) = is_signer ms k.
Proof. unfold is_signer. induction ms as [|m r IH]; [reflexivity|]. cbn. rewrite key_eq. f_equal. exact IH. Qed.
Lemma writable_move ms k : is_writable (mt_ ms) (f k) = is_writable ms k.
Proof. unfold is_writable. induction ms as [|m r IH]; [reflexivity|]. cbn. rewrite key_eq. f_equal. exact IH. Qed.
Definition ld_ (r : pubkey * list meta) : pubkey * list meta := (f (fst r), mt_ (snd r)).
Lemma owner_move L o it : next_with_owner (ml_ L) (f o) (mt_ it) = rmap ld_ (next_with_owner L o it).
Proof. destruct it as [|m r]; [reflexivity|]. cbn [map next_with_owner move_meta mt_key]. rewrite acc_move. cbn [move_account a_owner]. rewrite key_eq. destruct (_ =? _); reflexivity. Qed.
Lemma sysowner_move L it : next_with_owner (ml_ L) system_id (mt_ it) = rmap ld_ (next_with_owner L system_id it).
Proof. rewrite <- owner_move. unfold system_id. rewrite (rn_system f Hf). reflexivity. Qed.
Lemma uninit_move L it : next_uninitialized (ml_ L) (mt_ it) = rmap ld_ (next_uninitialized L it).
Proof. destruct it as [|m r]; [reflexivity|]. cbn [map next_uninitialized move_meta mt_key]. rewrite acc_move. cbn [move_account a_data]. rewrite zero_move. destruct (all_zero _); reflexivity. Qed.
Lemma withkey_move k it : next_with_key (f k) (mt_ it) = rmap ld_ (next_with_key k it).
Proof. destruct it as [|m r]; [reflexivity|]. cbn [map next_with_key move_meta mt_key]. rewrite key_eq. destruct (_ =? _); reflexivity. Qed.
Lemma syskey_move it : next_with_key system_id (mt_ it) = rmap ld_ (next_with_key system_id it).
Proof. rewrite <- withkey_move. unfold system_id. rewrite (rn_system f Hf). reflexivity. Qed.
Lemma nsigner_move ms it : next_signer (mt_ ms) (mt_ it) = rmap ld_ (next_signer ms it).
Proof. destruct it as [|m r]; [reflexivity|]. cbn [map next_signer move_meta mt_key]. rewrite signer_move. destruct (is_signer _ _); reflexivity. Qed.
Lemma assert_move a b : assert_account_key (f a) (f b) = assert_account_key a b.
Proof. unfold assert_account_key. rewrite key_eq. reflexivity. Qed.
Lemma distinct_move a b er : distinct (f a) (f b) er = distinct a b er.
Proof. unfold distinct. rewrite key_eq. reflexivity. Qed.
Lemma pda_move o : pda (option_map f o) = rmap f (pda o).
Proof. destruct o; reflexivity. Qed.
Lemma transfer_move ms L s t a x : spl_transfer (mt_ ms) (ml_ L) (f s) (f t) (f a) x = rmap ml_ (spl_transfer ms L s t a x).
Proof.
  unfold spl_transfer. rewrite !writable_move, signer_move, !acc_move, key_eq. cbn [move_account a_data].
  do 2 (apply bind_same; intros _ _). eapply bind_move; [apply load_token_move|]. intros s0 _.
  eapply bind_move; [apply load_token_move|]. intros t0 _. cbn [move_token t_amount t_mint t_owner]. rewrite !key_eq.
  do 3 (apply bind_same; intros _ _). destruct (s =? t); [reflexivity|]. apply bind_same. intros _ _. cbn [rmap]. f_equal.
  rewrite <- (put_data_move _ t (DToken _)), <- (put_data_move _ s (DToken _)). reflexivity.
Qed.
Lemma sys_owner a : (f a =? system_id) = (a =? system_id).
Proof. exact (key_zero a). Qed.
Lemma create_move ms L s t l n o : create_account (mt_ ms) (ml_ L) (f s) (f t) l n (f o) = rmap ml_ (create_account ms L s t l n o).
Proof.
  unfold create_account. rewrite !writable_move, signer_move, !acc_move, key_eq. cbn [move_account a_data a_owner a_lamports].
  rewrite !sys_owner, !len_data_move. do 6 (apply bind_same; intros _ _). cbn [rmap]. f_equal.
  rewrite put_lam_move, <- ins_move. unfold move_account. cbn [a_lamports a_owner a_data]. rewrite zeros_move. reflexivity.
Qed.
Lemma initacc_move ms L a m o : initialize_account (mt_ ms) (ml_ L) (f a) (f m) (f o) = rmap ml_ (initialize_account ms L a m o).
Proof.
  unfold initialize_account. rewrite writable_move, !acc_move. cbn [move_account a_data]. apply bind_same. intros _ _.
  destruct (a_data (acc L a)); cbn [move_data]; try reflexivity. destruct (a_data (acc L m)); cbn [move_data]; try reflexivity.
  apply bind_same. intros _ _. cbn [rmap]. f_equal. rewrite <- (put_data_move _ a (DToken _)). reflexivity.
Qed.
Lemma readonly_move ms L L' : readonly_ok (mt_ ms) (ml_ L) (ml_ L') = readonly_ok ms L L'.
Proof.
  unfold readonly_ok. generalize ms at 2 4. intros l. induction l as [|m r IH]; [reflexivity|].
  cbn [map forallb]. rewrite IH. cbn [move_meta mt_key]. rewrite writable_move, !acc_move. f_equal. f_equal.
  apply bool_decide_ext. split; [apply account_inj|congruence].
Qed.
End move.
