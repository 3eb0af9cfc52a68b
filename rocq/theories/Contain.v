(** Proofs for claim C66: damage by calls that give a longer account does not spread by itself. *)
From stdpp Require Import gmap.
From Verif Require Import Base OMap State Spec Ledger Program ResLemmas LedgerLemmas LedgerSpec CodecLemmas WfLemmas History HistoryLemmas ReachThms HistoryThms FrameLemmas
  Overlay OverlaySpec OverlayThms OverlayMore Local ContainSpec.

Definition bytes (L : ledger) : Prop := forall k, account_bytes_ok (acc L k).
Lemma bytes_ins L k a : bytes L -> account_bytes_ok a -> bytes (<[k := a]> L).
Proof. intros H Ha q. destruct (Z.eq_dec k q) as [->|Hne]; [rewrite acc_insert; exact Ha|rewrite acc_insert_ne by exact Hne; apply H]. Qed.
Lemma bytes_put L k d : bytes L -> match d with DToken t => is_u64 (t_amount t) | _ => True end -> bytes (put_data L k d).
Proof. intros H Hd. apply bytes_ins; [exact H|]. split; [apply (H k)|exact Hd]. Qed.
Lemma bytes_pool L k w : bytes L -> bytes (put_pool L k w).
Proof. intros H. apply bytes_put; [exact H|exact I]. Qed.
Lemma bytes_mining L k w : bytes L -> bytes (put_mining L k w).
Proof. intros H. apply bytes_put; [exact H|exact I]. Qed.
Lemma bytes_dlg L k w : bytes L -> bytes (put_dlg L k w).
Proof. intros H. destruct w; [apply bytes_mining|]; exact H. Qed.
Lemma bytes_store L k j d m : bytes L -> bytes (put_data L k (store_wide j d m)).
Proof.
  intros H. apply bytes_put; [exact H|]. unfold store_wide. destruct d; try exact I. destruct (root_of _ =? 0); [exact I|]. destruct (j_left _ _ _). exact I.
Qed.
Lemma bytes_wide L k j w : bytes L -> bytes (put_wide j L k w).
Proof. intros H. destruct w; [apply bytes_store|]; exact H. Qed.
Lemma bytes_lam L k x : bytes L -> is_u64 x -> bytes (put_lamports L k x).
Proof. intros H Hx. apply bytes_ins; [exact H|]. split; [exact Hx|apply (H k)]. Qed.
Lemma bytes_transfer ms L s t a x L' : bytes L -> 0 <= x -> spl_transfer ms L s t a x = Ok L' -> bytes L'.
Proof.
  intros HL Hx H. apply spl_transfer_inv in H as (u & d & Hs & Hd & _ & _ & _ & Hle & _ & _ & [[_ ->]|(Hne & Hlt & ->)]); [exact HL|].
  destruct (HL s) as [_ A]. destruct (HL t) as [_ B]. unfold data_of in *. rewrite Hs in A. rewrite Hd in B.
  apply bytes_put; [apply bytes_put; [exact HL|]|]; cbn; unfold is_u64 in *; lia.
Qed.
Lemma bytes_zeros l o n : is_u64 l -> account_bytes_ok (Account l o (zeros n)).
Proof. intros H. split; [exact H|]. cbn. unfold zeros. destruct (n =? 0); [exact I|]. destruct (n =? MINING_LEN); [exact I|]. destruct (n =? POOL_LEN); exact I. Qed.
Lemma bytes_create ms L s t l n o L' : bytes L -> 0 <= l -> create_account ms L s t l n o = Ok L' -> bytes L'.
Proof.
  intros HL Hl H. apply create_account_inv in H as (_ & _ & _ & _ & _ & _ & _ & _ & _ & Hle & ->).
  destruct (HL s) as [A _]. apply bytes_ins; [apply bytes_lam; [exact HL|]|apply bytes_zeros]; unfold is_u64 in *; lia.
Qed.
Lemma bytes_init ms L a m o L' : bytes L -> initialize_account ms L a m o = Ok L' -> bytes L'.
Proof.
  intros HL H. unfold initialize_account in H. inv. destruct (a_data (acc L a)); try discriminate. destruct (a_data (acc L m)); try discriminate. inv.
  apply bytes_put; [exact HL|]. cbn. unfold is_u64, U64. lia.
Qed.

Lemma bytes_wide_exec j e ts ms i L L' r : env_ok e -> ix_in_range i -> wide_exec j e ts ms i L = Ok (L', r) -> bytes L -> bytes L'.
Proof.
  intros He Hi H HL. apply wide_exec_inv in H as [H _]. pose proof (eo_rent e He) as Hr.
  destruct i; cbn [wide_process process] in H; try (apply no_ret_ok in H as [H _]).
  - apply init_pool_inv in H as (pool & mint & vault & payer & auth & bump & w & L1 & L2 & _ & _ & _ & _ & _ & _ & _ & _ & _ & _ & _ & Hc & Ha & ->).
    apply bytes_pool. eapply bytes_init; [|exact Ha]. eapply bytes_create; [exact HL|apply Hr|exact Hc].
  - apply fill_inv in H as (pool & mint & vault & auth & src & w & w' & _ & _ & _ & _ & _ & _ & _ & _ & _ & _ & _ & _ & Ht).
    eapply bytes_transfer; [|  |exact Ht]; [apply bytes_pool, HL|]. cbn in Hi. unfold is_u64 in Hi. lia.
  - apply init_mining_inv in H as (pool & mining & payer & bump & L1 & _ & _ & _ & _ & _ & Hc & ->).
    apply bytes_mining. eapply bytes_create; [exact HL|apply Hr|exact Hc].
  - apply deposit_inv in H as (pool & mining & auth & dm & w & m & w' & m' & d' & _ & _ & _ & _ & _ & ->). apply bytes_dlg, bytes_mining, bytes_pool, HL.
  - apply withdraw_inv in H as (pool & mining & auth & dm & w & m & w' & m' & d' & _ & _ & _ & _ & _ & ->). apply bytes_dlg, bytes_mining, bytes_pool, HL.
  - inv_bind H. destruct a as [L1 x]. injection H as <- <-.
    apply wide_claim_moves in E as (pool & mint & vault & mining & owner & auth & dest & w & m & m1 & _ & _ & _ & _ & _ & _ & _ & _ & _ & H).
    cbv zeta in H. destruct H as [[_ ->]|[Hp Ht]]; [apply bytes_store, HL|]. eapply bytes_transfer; [apply bytes_store, HL| |exact Ht]. lia.
  - apply extend_inv in H as (pool & mining & auth & dm & w & m & w' & m' & d' & _ & _ & _ & _ & _ & ->). apply bytes_dlg, bytes_mining, bytes_pool, HL.
  - apply distribute_inv in H as (pool & auth & w & x & w' & _ & _ & _ & _ & _ & _ & _ & ->). apply bytes_pool, HL.
  - unfold wide_close in H. inv. subst. apply bytes_ins; [apply bytes_lam; [exact HL|]|apply bytes_zeros; unfold is_u64, U64; lia].
    match goal with |- is_u64 (_ (acc L ?a) + _ (acc L ?b)) => destruct (HL a) as [A _]; destruct (HL b) as [B _] end. unfold is_u64, U64 in *. lia.
  - apply wide_change_inv in H as (pool & mining & auth & owner & od & nd & w & m & w' & m' & o' & n' & _ & _ & _ & _ & _ & _ & ->).
    apply bytes_dlg, bytes_wide, bytes_mining, bytes_pool, HL.
  - apply slash_inv in H as (auth & pool & mining & w & m & w' & m' & _ & _ & _ & ->). apply bytes_mining, bytes_pool, HL.
  - apply decrease_inv in H as (auth & pool & mining & w & m & m' & _ & _ & _ & ->). apply bytes_mining, HL.
Qed.
Lemma bytes_step e now L ev L' : env_ok e -> wide_step e now L ev L' -> bytes L -> bytes L'.
Proof.
  intros He H HL. destruct H as [j ts ms i L' r _ _ Hi H|ts L' _ _ H]; [eapply bytes_wide_exec; eassumption|]. intros k. apply (H k).
Qed.

(** the accounts of [A] in the set, those of [B] outside *)
Definition mix (T : pubkey -> bool) (A B : ledger) : ledger :=
  base.filter (fun x : pubkey * account => T x.1 = true) A ∪ base.filter (fun x : pubkey * account => T x.1 = false) B.
Lemma mix_acc T A B k : acc (mix T A B) k = if T k then acc A k else acc B k.
Proof.
  unfold acc, mix, ledger, pubkey in *. rewrite lookup_union. destruct (T k) eqn:E.
  - rewrite (map_filter_lookup_None_2 _ B k) by (right; intros a _; cbn; congruence).
    destruct (A !! k) as [a|] eqn:Ea.
    + rewrite (map_filter_lookup_Some_2 _ A k a Ea) by (cbn; exact E). reflexivity.
    + rewrite (map_filter_lookup_None_2 _ A k) by (left; exact Ea). reflexivity.
  - rewrite (map_filter_lookup_None_2 _ A k) by (right; intros a _; cbn; congruence).
    destruct (B !! k) as [a|] eqn:Ea.
    + rewrite (map_filter_lookup_Some_2 _ B k a Ea) by (cbn; exact E). reflexivity.
    + rewrite (map_filter_lookup_None_2 _ B k) by (left; exact Ea). reflexivity.
Qed.
Lemma external_refl e a : account_bytes_ok a -> external_account e a a.
Proof. intros H. split; [exact H|]. split; [intros _; left; repeat split; reflexivity|]. intros A B. contradiction. Qed.
Lemma external_other e a a' : account_bytes_ok a' -> a_owner a <> program_id e -> a_owner a' <> program_id e -> external_account e a a'.
Proof. intros H A B. split; [exact H|]. split; intros C; [contradiction|]. intros D. contradiction. Qed.

(** a clean call can be recognised *)
Definition ordinaryb (L : ledger) (k : pubkey) : bool :=
  match data_of L k with DMining _ => true | d => data_len d <? 1776 end.
Lemma ordinaryb_ok L k : ordinaryb L k = true <-> ordinary L k.
Proof.
  unfold ordinaryb, ordinary. destruct (data_of L k) eqn:E; (split; intros H;
    [first [left; eexists; reflexivity|right; apply Z.ltb_lt; exact H]|first [reflexivity|destruct H as [[m H]|H]; [discriminate H|apply Z.ltb_lt; exact H]]]).
Qed.
Definition cleanb (T : pubkey -> bool) (L : ledger) (ms : list meta) (i : ix) : bool :=
  forallb (fun m => negb (T (mt_key m))) ms &&
  match open_position i with None => true | Some p => match nth_error (map mt_key ms) p with None => true | Some k => ordinaryb L k end end.
Lemma cleanb_ok T L ms i : cleanb T L ms i = true <-> clean_call T L ms i.
Proof.
  unfold cleanb, clean_call, names, gives, account_at. rewrite andb_true_iff. apply Morphisms_Prop.and_iff_morphism.
  - rewrite forallb_forall. split.
    + intros H k Hk. apply in_map_iff in Hk as (m & <- & Hm). apply H in Hm. destruct (T (mt_key m)); [discriminate Hm|reflexivity].
    + intros H m Hm. rewrite (H (mt_key m)); [reflexivity|]. apply in_map. exact Hm.
  - split.
    + intros H k (p & Hp & Hk). rewrite Hp, Hk in H. apply ordinaryb_ok. exact H.
    + intros H. destruct (open_position i) as [p|]; [|reflexivity]. destruct (nth_error (map mt_key ms) p) as [k|] eqn:E; [|reflexivity].
      apply ordinaryb_ok. apply H. exists p. auto.
Qed.

(** a call outside the set *)
Lemma unnamed_same j e ts ms i L L' r k : wide_exec j e ts ms i L = Ok (L', r) -> ~ names ms k -> acc L' k = acc L k.
Proof.
  intros H Hk. destruct (decide (acc L' k = acc L k)) as [E|E]; [exact E|]. exfalso. apply Hk.
  destruct (wide_changed _ _ _ _ _ _ _ _ _ H E) as [(n & _ & Hn) _]. unfold account_at in Hn. apply nth_error_In in Hn. exact Hn.
Qed.
Lemma same_call T L M j e ts ms i : same_outside T L M -> clean_call T L ms i ->
  match wide_exec j e ts ms i L, exec e ts ms i M with
  | Ok (L', r), Ok (M', s) => r = s /\ same_outside T L' M'
  | Err x, Err y => x = y
  | _, _ => False
  end.
Proof.
  intros HM [Hn Ho]. rewrite (otherwise_same j e ts ms i L Ho).
  assert (Hk : forall k, In k (keys ms) -> acc L k = acc M k) by (intros k Hk; apply HM, Hn; exact Hk).
  pose proof (exec_local e ts ms i L M Hk) as H.
  destruct (exec e ts ms i L) as [[L' r]|x] eqn:EL, (exec e ts ms i M) as [[M' s]|y] eqn:EM; try exact H.
  destruct H as [-> H]. split; [reflexivity|]. intros k Tk. destruct (in_dec Z.eq_dec k (keys ms)) as [Hin|Hin]; [apply H; exact Hin|].
  rewrite (unnamed_same j e ts ms i L L' s k), (unnamed_same j e ts ms i M M' s k); [apply HM; exact Tk| | | |];
    try exact Hin; apply exec_wide; assumption.
Qed.

(** one event *)
Lemma sim_step e now L T ev L1 T1 M : env_ok e -> bytes L -> bytes M -> same_outside T L M ->
  wide_step e now L ev L1 -> (forall k, T1 k = true <-> T k = true \/ hit e L T ev L1 k) ->
  exists ev' M1, (ev' = ev \/ ev' = EvExt (time_of ev)) /\ step e now M ev' M1 /\ same_outside T1 L1 M1.
Proof.
  intros He BL BM HM Hs Hg. pose proof (bytes_step e now L ev L1 He Hs BL) as B1.
  assert (Sub : forall k, T1 k = false -> T k = false).
  { intros k Hk. destruct (T k) eqn:E; [|reflexivity]. rewrite (proj2 (Hg k) (or_introl E)) in Hk. discriminate Hk. }
  assert (Same : same_outside T1 L1 (mix T1 M L1)) by (intros k Hk; rewrite mix_acc, Hk; reflexivity).
  destruct Hs as [j ts ms i L1 r Hnow Hts Hi H|ts L1 Hnow Hts H].
  - destruct (cleanb T L ms i) eqn:Ec.
    + apply cleanb_ok in Ec. pose proof (same_call T L M j e ts ms i HM Ec) as HC. rewrite H in HC.
      destruct (exec e ts ms i M) as [[M1 s]|] eqn:EM; [|destruct HC]. destruct HC as [_ HC].
      exists (EvIx ts ms i), M1. split; [left; reflexivity|]. split; [econstructor; eassumption|]. intros k Hk. apply HC, Sub, Hk.
    + exists (EvExt ts), (mix T1 M L1). split; [right; reflexivity|]. split; [|exact Same]. constructor; [exact Hnow|exact Hts|].
      intros k. rewrite mix_acc. destruct (T1 k) eqn:Tk; [apply external_refl, BM|]. rewrite <- (HM k (Sub k Tk)).
      destruct (decide (acc L1 k = acc L k)) as [->|Hne]; [apply external_refl, BL|].
      assert (Hnc : ~ clean_call T L ms i) by (intros C; apply cleanb_ok in C; congruence).
      apply external_other; [apply B1| |]; intros Ho; rewrite (proj2 (Hg k)) in Tk; try discriminate Tk; right; split; auto.
  - exists (EvExt ts), (mix T1 M L1). split; [right; reflexivity|]. split; [|exact Same]. constructor; [exact Hnow|exact Hts|].
    intros k. rewrite mix_acc. destruct (T1 k) eqn:Tk; [apply external_refl, BM|]. rewrite <- (HM k (Sub k Tk)). apply H.
Qed.
Lemma step_wide e now L ev L' : step e now L ev L' -> wide_step e now L ev L'.
Proof.
  intros H. pose proof (run_is_wide e [ev] now L (time_of ev) L' (run_cons e _ _ _ _ _ _ _ H (run_nil e _ _))) as W.
  inversion W as [|? ? ? L1 ? ? ? W1 W2]; subst. inversion W2; subst. exact W1.
Qed.
Lemma contained e now L T evs now' L' T' M : env_ok e -> bytes L -> bytes M -> same_outside T L M ->
  spread e now L T evs now' L' T' ->
  exists evs' M', Forall2 (fun ev ev' => ev' = ev \/ ev' = EvExt (time_of ev)) evs evs' /\
    run e now M evs' now' M' /\ same_outside T' L' M'.
Proof.
  intros He BL BM HM H. revert M BL BM HM. induction H as [now L T|now L T ev L1 T1 evs now' L' T' Hs Hg _ IH]; intros M BL BM HM.
  - exists [], M. split; [constructor|]. split; [constructor|exact HM].
  - destruct (sim_step e now L T ev L1 T1 M He BL BM HM Hs Hg) as (ev' & M1 & Hev & Hst & HM1).
    destruct (IH M1) as (evs' & M' & Hf & Hr & HM'); [eapply bytes_step; eassumption|eapply bytes_step; [exact He|apply step_wide; exact Hst|exact BM]|exact HM1|].
    exists (ev' :: evs'), M'. split; [constructor; [exact Hev|exact Hf]|]. split; [|exact HM'].
    econstructor; [exact Hst|]. destruct Hev as [->| ->]; exact Hr.
Qed.
Lemma genesis_bytes e L : genesis e L -> bytes L.
Proof. intros H k. apply (H k). Qed.
Lemma contained_genesis e L T evs now' L' T' : env_ok e -> genesis e L -> spread e 0 L T evs now' L' T' ->
  exists M, reached e now' M /\ same_outside T' L' M.
Proof.
  intros He G H. pose proof (genesis_bytes e L G) as B.
  destruct (contained e 0 L T evs now' L' T' L He B B (fun k _ => eq_refl) H) as (evs' & M & _ & Hr & HM).
  exists M. split; [exists L, evs'; auto|exact HM].
Qed.

(** every history has such a set *)
Definition hitb (e : env) (L : ledger) (T : pubkey -> bool) (ev : event) (L1 : ledger) (k : pubkey) : bool :=
  match ev with
  | EvIx _ ms i => negb (cleanb T L ms i) && negb (bool_decide (acc L1 k = acc L k)) &&
      ((owner_of L k =? program_id e) || (owner_of L1 k =? program_id e))
  | EvExt _ => false
  end.
Lemma hitb_ok e L T ev L1 k : hitb e L T ev L1 k = true <-> hit e L T ev L1 k.
Proof.
  destruct ev as [ts ms i|ts]; cbn [hitb hit]; [|split; [discriminate|intros []]].
  rewrite !andb_true_iff, !negb_true_iff, orb_true_iff, !Z.eqb_eq, bool_decide_eq_false, <- cleanb_ok, <- not_true_iff_false. tauto.
Qed.
Lemma spread_exists e now L T evs now' L' : wide_run e now L evs now' L' -> exists T', spread e now L T evs now' L' T'.
Proof.
  intros H. revert T. induction H as [now L|now L ev L1 evs now' L' Hs _ IH]; intros T; [exists T; constructor|].
  destruct (IH (fun k => T k || hitb e L T ev L1 k)) as [T' HT]. exists T'. econstructor; [exact Hs| |exact HT].
  intros k. rewrite orb_true_iff, hitb_ok. reflexivity.
Qed.
Lemma spread_run e now L T evs now' L' T' : spread e now L T evs now' L' T' -> wide_run e now L evs now' L' /\ forall k, T k = true -> T' k = true.
Proof.
  induction 1 as [now L T|now L T ev L1 T1 evs now' L' T' Hs Hg _ [IH1 IH2]]; [split; [constructor|auto]|].
  split; [econstructor; eassumption|]. intros k Hk. apply IH2, Hg. left. exact Hk.
Qed.

(** a pool is hit only where it is given as a mining, or with the signature of its authority *)
Lemma nth_are ms ks n k : accounts_are ms ks -> account_at ms n k -> (n < length ks)%nat -> nth_error ks n = Some k.
Proof. intros [rest E] H Hn. unfold account_at in H. rewrite E, nth_error_app1 in H by exact Hn. exact H. Qed.
Ltac which A Hn := apply (nth_are _ _ _ _ A) in Hn; [|cbn [length]; lia]; cbn [nth_error] in Hn; injection Hn as <-.
Lemma pool_hit j e ts ms i L L' r k w : env_ok e ->
  wide_exec j e ts ms i L = Ok (L', r) -> is_pool e L k w -> p_type (wp w) = TYPE_POOL -> acc L' k <> acc L k ->
  gives ms i k \/ account_at ms (pool_position i) k /\ exists ro, role_of i = Some ro /\ signed ms (holder w ro).
Proof.
  intros He H Hp Hty Hne. pose proof Hp as [Hko Hkd].
  assert (Role : account_at ms (pool_position i) k -> role_of i <> None -> account_at ms (pool_position i) k /\ exists ro, role_of i = Some ro /\ signed ms (holder w ro)).
  { intros Hk Hr. split; [exact Hk|]. destruct (role_of i) as [ro|] eqn:Er; [|contradiction]. exists ro. split; [reflexivity|].
    destruct (wide_signed j e ts ms i L L' r ro H Er) as (q & y & Hq & [_ Hqd] & Hsg). unfold account_at in *. rewrite Hk in Hq. injection Hq as <-.
    rewrite Hkd in Hqd. injection Hqd as <-. exact Hsg. }
  destruct (wide_changed _ _ _ _ _ _ _ _ _ H Hne) as [(n & Hin & Hn) _].
  pose proof H as H0. apply wide_exec_inv in H as [H _].
  assert (G : wide_process j e ts ms i L = process e ts ms i L -> role_of i <> None -> account_at ms (pool_position i) k).
  { intros E Hr. destruct (role_of i) as [ro|] eqn:Er; [|contradiction]. destruct (wide_signed j e ts ms i L L' r ro H0 Er) as (q & y & Hq & _ & _).
    destruct (Z.eq_dec k q) as [->|Hkq]; [exact Hq|]. destruct Hne.
    eapply (isolation_pool e He); [|exact Hq|exact Hp|exact Hkq]. rewrite <- H0. unfold exec, wide_exec. rewrite E. reflexivity. }
  pose proof (eo_sys e He) as Sys. pose proof (eo_tok e He) as Tok.
  destruct i; cbn [wide_process] in G, H;
    try (match type of G with ?a = ?a -> _ -> _ => right; apply Role; [apply G; [reflexivity|discriminate]|discriminate] end); clear G; cbn [process may_change] in *.
  - apply no_ret_ok in H as [H _]. exfalso.
    apply init_pool_inv in H as (pool & mint & vault & payer & auth & bump & x & L1 & L2 & A & _ & _ & _ & _ & _ & Hx & Hxt & _ & _ & _ & Hc & _ & _).
    apply create_account_inv in Hc as (_ & _ & _ & _ & Ht & _ & Hf & _).
    destruct Hin as [<-|[<-|[<-|[]]]]; which A Hn; congruence.
  - apply no_ret_ok in H as [H _]. exfalso.
    apply init_mining_inv in H as (pool & mining & payer & bump & L1 & A & _ & _ & _ & _ & Hc & _).
    apply create_account_inv in Hc as (_ & _ & _ & _ & Ht & _ & Hf & _).
    destruct Hin as [<-|[<-|[]]]; which A Hn; congruence.
  - inv_bind H. destruct a as [L1 x]. injection H as <- <-.
    apply wide_claim_moves in E as (pool & mint & vault & mining & owner & auth & dest & y & m & m1 & A & Hv & _ & Hd & _).
    destruct (Nat.eq_dec n 3) as [->|H3]; [left; exists 3%nat; auto|exfalso].
    destruct Hin as [<-|[<-|[<-|[]]]]; try congruence; which A Hn; congruence.
  - apply no_ret_ok in H as [H _]. apply wide_close_moves in H as (mining & owner & target & auth & pool & A & _ & Ht & _).
    destruct (Nat.eq_dec n 0) as [->|H3]; [left; exists 0%nat; auto|exfalso].
    destruct Hin as [<-|[<-|[]]]; try congruence; which A Hn; congruence.
  - apply no_ret_ok in H as [H _]. apply wide_change_inv in H as (pool & mining & auth & owner & od & nd & y & m & w' & m' & od' & nd' & A & Hc & _ & _ & _ & Hch & _).
    destruct (Nat.eq_dec n 4) as [->|H4]; [left; exists 4%nat; auto|right].
    destruct (Nat.eq_dec n 0) as [->|H1]; [apply Role; [exact Hn|discriminate]|exfalso].
    destruct Hin as [<-|[<-|[<-|[<-|[]]]]]; try congruence; which A Hn.
    + rewrite (sc_mining _ _ _ _ _ _ _ _ _ Hc) in Hkd. discriminate Hkd.
    + unfold dlg_of in Hch. destruct (Z.eqb_spec mining nd) as [E|_]; [rewrite <- E, (sc_mining _ _ _ _ _ _ _ _ _ Hc) in Hkd; discriminate Hkd|].
      unfold data_of in Hkd. rewrite Hkd in Hch. cbn [load_mining] in Hch. apply change_frame in Hch as (_ & _ & _ & []).
Qed.

(** a history without such calls hits nothing *)
Lemma clean_exec e ts ms i L L' r : exec e ts ms i L = Ok (L', r) -> clean_call nobody L ms i.
Proof. intros H. split; [reflexivity|]. intros k. exact (exec_ordinary e ts ms i L L' r k H). Qed.
Lemma run_spread e now L evs now' L' : run e now L evs now' L' -> spread e now L nobody evs now' L' nobody.
Proof.
  induction 1 as [now L|now L ev L1 evs now' L' Hs _ IH]; [constructor|]. econstructor; [apply step_wide; exact Hs| |exact IH].
  intros k. split; [discriminate|]. intros [H|H]; [exact H|]. destruct Hs as [ts ms i L1 r _ _ _ Hx|]; [|destruct H].
  destruct H as [H _]. destruct H. eapply clean_exec. exact Hx.
Qed.
Lemma spread_app e now L T evs now1 L1 T1 evs' now' L' T' :
  spread e now L T evs now1 L1 T1 -> spread e now1 L1 T1 evs' now' L' T' -> spread e now L T (evs ++ evs') now' L' T'.
Proof. induction 1; intros G; [exact G|]. cbn [app]. econstructor; [eassumption|eassumption|]. auto. Qed.
Lemma locality e ts ms i L M : (forall k, names ms k -> acc L k = acc M k) ->
  match exec e ts ms i L, exec e ts ms i M with
  | Ok (L', r), Ok (M', s) => r = s /\ (forall k, names ms k -> acc L' k = acc M' k) /\
      (forall k, ~ names ms k -> acc L' k = acc L k /\ acc M' k = acc M k)
  | Err x, Err y => x = y
  | _, _ => False
  end.
Proof.
  intros H. pose proof (exec_local e ts ms i L M H) as X.
  destruct (exec e ts ms i L) as [[L' r]|x] eqn:EL, (exec e ts ms i M) as [[M' s]|y] eqn:EM; try exact X.
  destruct X as [-> X]. split; [reflexivity|]. split; [exact X|]. intros k Hk.
  set (j := Junk (fun _ => Err EPanic) (fun w _ => (wp w, wp_diffs w)) (fun _ => zero_wmining)).
  split; eapply (unnamed_same j); try exact Hk; apply exec_wide; eassumption.
Qed.
Lemma well_formed_outside e L T evs now' L' T' : env_ok e -> genesis e L -> spread e 0 L T evs now' L' T' ->
  forall k, T' k = false -> account_ok e now' (acc L' k).
Proof.
  intros He G H k Hk. destruct (contained_genesis e L T evs now' L' T' He G H) as (M & HM & Hs). rewrite (Hs k Hk). eapply reached_ok; eassumption.
Qed.
