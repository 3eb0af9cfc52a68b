(** What a call does depends only on the accounts it names. *)
From stdpp Require Import gmap.
From Verif Require Import Base OMap State Ledger Program ResLemmas LedgerLemmas LedgerSpec History HistoryLemmas Changes Move.

(** the accounts in a list, nothing else *)
Definition only (ks : list pubkey) (L : ledger) : ledger := foldr (fun k M => <[k := acc L k]> M) ∅ ks.
Definition keys (ms : list meta) : list pubkey := map mt_key ms.

Lemma only_in ks L k : In k ks -> only ks L !! k = Some (acc L k).
Proof.
  induction ks as [|q r IH]; [intros []|]. cbn. intros H. unfold ledger, pubkey in *. destruct (Z.eq_dec q k) as [->|Hne]; [apply lookup_insert|].
  rewrite lookup_insert_ne by exact Hne. apply IH. destruct H; [contradiction|assumption].
Qed.
Lemma only_out ks L k : ~ In k ks -> only ks L !! k = None.
Proof.
  induction ks as [|q r IH]; intros H; [apply lookup_empty|]. cbn in *. unfold ledger, pubkey in *. rewrite lookup_insert_ne by tauto. apply IH. tauto.
Qed.
Lemma only_acc ks L k : In k ks -> acc (only ks L) k = acc L k.
Proof. intros H. unfold acc at 1. rewrite only_in by exact H. reflexivity. Qed.
Lemma only_insert ks L k a : In k ks -> <[k := a]> (only ks L) = only ks (<[k := a]> L).
Proof.
  intros H. apply map_eq. intros q. destruct (in_dec Z.eq_dec q ks) as [Hq|Hq].
  - rewrite (only_in ks _ q Hq). destruct (Z.eq_dec k q) as [->|Hne].
    + unfold ledger, pubkey in *. rewrite lookup_insert, acc_insert. reflexivity.
    + rewrite acc_insert_ne by exact Hne. unfold ledger, pubkey in *. rewrite lookup_insert_ne by exact Hne. apply only_in. exact Hq.
  - rewrite (only_out ks _ q Hq). unfold ledger, pubkey in *. rewrite lookup_insert_ne by (intros ->; contradiction). apply only_out. exact Hq.
Qed.
Lemma only_eq ks L1 L2 : (forall k, In k ks -> acc L1 k = acc L2 k) -> only ks L1 = only ks L2.
Proof.
  intros H. induction ks as [|q r IH]; [reflexivity|]. unfold only in *. cbn [foldr]. rewrite IH by (intros k Hk; apply H; right; exact Hk). rewrite (H q) by (left; reflexivity). reflexivity.
Qed.

Section local.
Context (e : env) (ms : list meta).
Local Notation S := (keys ms).
Local Notation g := (only (keys ms)).

Lemma put_data_g L k x : In k S -> put_data (g L) k x = g (put_data L k x).
Proof. intros H. unfold put_data. rewrite only_acc by exact H. apply only_insert. exact H. Qed.
Lemma put_pool_g L k x : In k S -> put_pool (g L) k x = g (put_pool L k x).
Proof. apply put_data_g. Qed.
Lemma put_mining_g L k x : In k S -> put_mining (g L) k x = g (put_mining L k x).
Proof. apply put_data_g. Qed.
Lemma put_dlg_g L k x : In k S -> put_dlg (g L) k x = g (put_dlg L k x).
Proof. destruct x; [apply put_data_g|reflexivity]. Qed.
Lemma put_lam_g L k x : In k S -> put_lamports (g L) k x = g (put_lamports L k x).
Proof. intros H. unfold put_lamports. rewrite only_acc by exact H. apply only_insert. exact H. Qed.

Lemma owner_g L o it : incl (keys it) S -> next_with_owner (g L) o it = next_with_owner L o it.
Proof. destruct it as [|m r]; intros H; [reflexivity|]. cbn. rewrite only_acc by (apply H; left; reflexivity). reflexivity. Qed.
Lemma uninit_g L it : incl (keys it) S -> next_uninitialized (g L) it = next_uninitialized L it.
Proof. destruct it as [|m r]; intros H; [reflexivity|]. cbn. rewrite only_acc by (apply H; left; reflexivity). reflexivity. Qed.
Lemma owner_in L o it k r : next_with_owner L o it = Ok (k, r) -> incl (keys it) S -> In k S /\ incl (keys r) S.
Proof. destruct it as [|m q]; cbn; [discriminate|]. destruct (_ =? _); [|discriminate]. intros [= <- <-] H. split; [apply H; left; reflexivity|]. intros x Hx. apply H. right. exact Hx. Qed.
Lemma uninit_in L it k r : next_uninitialized L it = Ok (k, r) -> incl (keys it) S -> In k S /\ incl (keys r) S.
Proof. destruct it as [|m q]; cbn; [discriminate|]. destruct (all_zero _); [|discriminate]. intros [= <- <-] H. split; [apply H; left; reflexivity|]. intros x Hx. apply H. right. exact Hx. Qed.
Lemma signer_in it k r : next_signer ms it = Ok (k, r) -> incl (keys it) S -> In k S /\ incl (keys r) S.
Proof. destruct it as [|m q]; cbn; [discriminate|]. destruct (is_signer _ _); [|discriminate]. intros [= <- <-] H. split; [apply H; left; reflexivity|]. intros x Hx. apply H. right. exact Hx. Qed.
Lemma key_in x it k r : next_with_key x it = Ok (k, r) -> incl (keys it) S -> In k S /\ incl (keys r) S.
Proof. destruct it as [|m q]; cbn; [discriminate|]. destruct (_ =? _); [|discriminate]. intros [= <- <-] H. split; [apply H; left; reflexivity|]. intros y Hy. apply H. right. exact Hy. Qed.

Lemma transfer_g L s t a x : In s S -> In t S -> spl_transfer ms (g L) s t a x = rmap g (spl_transfer ms L s t a x).
Proof.
  intros Hs Ht. unfold spl_transfer. rewrite !only_acc by assumption. repeat (apply bind_same; intros ? _).
  destruct (s =? t); [reflexivity|]. apply bind_same. intros _ _. cbn [rmap]. f_equal. rewrite !put_data_g by assumption. reflexivity.
Qed.
Lemma create_g L s t l n o : In s S -> In t S -> create_account ms (g L) s t l n o = rmap g (create_account ms L s t l n o).
Proof.
  intros Hs Ht. unfold create_account. rewrite !only_acc by assumption. repeat (apply bind_same; intros ? _). cbn [rmap]. f_equal.
  rewrite put_lam_g, only_insert by assumption. reflexivity.
Qed.
Lemma initacc_g L a m o : In a S -> In m S -> initialize_account ms (g L) a m o = rmap g (initialize_account ms L a m o).
Proof.
  intros Ha Hm. unfold initialize_account. rewrite !only_acc by assumption. apply bind_same. intros ? _.
  destruct (a_data (acc L a)); try reflexivity. destruct (a_data (acc L m)); try reflexivity. apply bind_same. intros _ _. cbn [rmap]. f_equal. apply put_data_g. exact Ha.
Qed.
Lemma get_g L o m p a : In m S -> In p S -> assert_and_get e (g L) o m p a = assert_and_get e L o m p a.
Proof. intros Hm Hp. unfold assert_and_get. rewrite !only_acc by assumption. reflexivity. Qed.
Lemma verify_g L q m o p : In q S -> verify_opt e (g L) q m o p = verify_opt e L q m o p.
Proof. intros H. unfold verify_opt, verify_delegate. rewrite only_acc by exact H. reflexivity. Qed.
Lemma dlg_g L q m : In q S -> dlg_of (g L) q m = dlg_of L q m.
Proof. intros H. unfold dlg_of. rewrite only_acc by exact H. reflexivity. Qed.
Lemma old_g L q m p : In q S -> old_dlg (g L) q m p = old_dlg L q m p.
Proof. intros H. unfold old_dlg. rewrite dlg_g by exact H. reflexivity. Qed.
Lemma readonly_g L L' : readonly_ok ms (g L) (g L') = readonly_ok ms L L'.
Proof.
  unfold readonly_ok.
  assert (G : forall l, incl (keys l) S ->
    forallb (fun m => is_writable ms (mt_key m) || bool_decide (acc (g L) (mt_key m) = acc (g L') (mt_key m))) l =
    forallb (fun m => is_writable ms (mt_key m) || bool_decide (acc L (mt_key m) = acc L' (mt_key m))) l).
  { induction l as [|m r IH]; intros H; [reflexivity|]. cbn [forallb]. rewrite IH by (intros x Hx; apply H; right; exact Hx).
    rewrite !only_acc by (apply H; left; reflexivity). reflexivity. }
  apply G. apply incl_refl.
Qed.

Ltac lg :=
  repeat (apply bind_eq; [first [apply owner_g; assumption | apply uninit_g; assumption | reflexivity]|];
    let k := fresh "k" in let it := fresh "it" in let H := fresh "Hk" in intros [k it] H;
    first [apply owner_in in H as [H ?]; [|assumption] | apply uninit_in in H as [H ?]; [|assumption]
          | apply signer_in in H as [H ?]; [|assumption] | apply key_in in H as [H ?]; [|assumption]]).
Ltac ing := rewrite ?get_g, ?verify_g, ?dlg_g, ?old_g, ?only_acc by assumption.

Lemma process_g ts i L : process e ts ms i (g L) = rmap (fun x => (g (fst x), snd x)) (process e ts ms i L).
Proof.
  assert (Hms : incl (keys ms) S) by apply incl_refl.
  assert (NR : forall r, no_ret (rmap g r) = rmap (fun x => (g (fst x), snd x)) (no_ret r)) by (intros [?|?]; reflexivity).
  destruct i; cbn [process]; try rewrite <- NR; try (f_equal; [idtac]).
  - unfold process_initialize_pool. lg. ing. do 3 (apply bind_same; intros ? _). destruct (find_vault e _ _) as [vk b].
    do 2 (apply bind_same; intros ? _). eapply bind_move; [apply create_g; assumption|]. intros La _. apply bind_same. intros ? _.
    eapply bind_move; [apply initacc_g; assumption|]. intros Lb _. cbn [rmap]. f_equal. apply put_pool_g. assumption.
  - unfold process_fill_vault. lg. ing. do 6 (apply bind_same; intros ? _). apply bind_same. intros _ _. rewrite put_pool_g by assumption. apply transfer_g; assumption.
  - unfold process_initialize_mining. lg. destruct (find_mining e _ _) as [vk b]. apply bind_same. intros ? _.
    eapply bind_move; [apply create_g; assumption|]. intros La _. ing. apply bind_same. intros ? _. cbn [rmap]. f_equal. apply put_mining_g. assumption.
  - unfold process_deposit. lg. ing. apply bind_same. intros ? _. apply bind_same. intros [w m] _. apply bind_same. intros ? _. apply bind_same. intros [[w' m'] d'] _.
    cbn [rmap]. f_equal. rewrite put_pool_g, put_mining_g, put_dlg_g by assumption. reflexivity.
  - unfold process_withdraw. lg. ing. apply bind_same. intros ? _. apply bind_same. intros [w m] _. apply bind_same. intros ? _. apply bind_same. intros [[w' m'] d'] _.
    cbn [rmap]. f_equal. rewrite put_pool_g, put_mining_g, put_dlg_g by assumption. reflexivity.
  - assert (E : process_claim e ts ms (g L) = rmap (fun x => (g (fst x), snd x)) (process_claim e ts ms L)).
    { unfold process_claim. lg. ing. do 11 (apply bind_same; intros ? _). rewrite put_mining_g by assumption. apply (bind_move _ _ g); [|reflexivity].
      destruct (0 <? _); [apply transfer_g; assumption|reflexivity]. }
    rewrite E. destruct (process_claim e ts ms L) as [[? ?]|]; reflexivity.
  - unfold process_extend. lg. ing. apply bind_same. intros ? _. apply bind_same. intros [w m] _. apply bind_same. intros ? _. apply bind_same. intros [[w' m'] d'] _.
    cbn [rmap]. f_equal. rewrite put_pool_g, put_mining_g, put_dlg_g by assumption. reflexivity.
  - unfold process_distribute. lg. ing. do 4 (apply bind_same; intros ? _). cbn [rmap]. f_equal. apply put_pool_g. assumption.
  - unfold process_close. lg. ing. do 9 (apply bind_same; intros ? _). cbn [rmap]. f_equal. rewrite put_lam_g, only_insert by assumption. reflexivity.
  - unfold process_change_delegate. lg. ing. apply bind_same. intros ? _. apply bind_same. intros ? _. apply bind_same. intros [w m] _. apply bind_same. intros ? _.
    apply bind_same. intros [[[w' m'] od] nd] _. cbn [rmap]. f_equal. rewrite put_pool_g, put_mining_g, !put_dlg_g by assumption. reflexivity.
  - unfold process_slash. lg. ing. apply bind_same. intros ? _. apply bind_same. intros [w m] _. apply bind_same. intros [w' m'] _.
    cbn [rmap]. f_equal. rewrite put_pool_g, put_mining_g by assumption. reflexivity.
  - unfold process_decrease. lg. ing. apply bind_same. intros ? _. apply bind_same. intros [w m] _. apply bind_same. intros m' _.
    cbn [rmap]. f_equal. rewrite put_mining_g by assumption. reflexivity.
Qed.
Lemma exec_g ts i L : exec e ts ms i (g L) = rmap (fun x => (g (fst x), snd x)) (exec e ts ms i L).
Proof.
  unfold exec. rewrite process_g. destruct (process e ts ms i L) as [[L' r]|]; [|reflexivity]. cbn [rmap rbind fst snd]. rewrite readonly_g.
  destruct (readonly_ok ms L L'); reflexivity.
Qed.
End local.

Lemma exec_local e ts ms i L1 L2 : (forall k, In k (keys ms) -> acc L1 k = acc L2 k) ->
  match exec e ts ms i L1, exec e ts ms i L2 with
  | Ok (L1', r1), Ok (L2', r2) => r1 = r2 /\ forall k, In k (keys ms) -> acc L1' k = acc L2' k
  | Err x, Err y => x = y
  | _, _ => False
  end.
Proof.
  intros H. pose proof (exec_g e ms ts i L1) as E1. pose proof (exec_g e ms ts i L2) as E2. rewrite (only_eq (keys ms) L1 L2 H) in E1. rewrite E1 in E2.
  destruct (exec e ts ms i L1) as [[L1' r1]|], (exec e ts ms i L2) as [[L2' r2]|]; cbn in E2; try discriminate E2; [|injection E2; auto].
  injection E2 as E -> . split; [reflexivity|]. intros k Hk. rewrite <- (only_acc (keys ms) L1' k Hk), E. apply only_acc. exact Hk.
Qed.
