(** What an instruction writes is determined by the accounts it writes to and by the index
    history of its pool. *)
From stdpp Require Import gmap.
From Verif Require Import Base OMap State Spec Ledger Program ResLemmas TreeLemmas LedgerLemmas LedgerSpec
  CodecLemmas WfLemmas History HistoryLemmas Changes AccessLemmas.

(** an account with other data *)
Definition with_data (a : account) (d : adata) : account := Account (a_lamports a) (a_owner a) d.

Lemma acc_put L x d k : acc (put_data L x d) k = if x =? k then with_data (acc L k) d else acc L k.
Proof.
  destruct (Z.eqb_spec x k) as [->|]; [|apply acc_put_data_ne; assumption].
  unfold put_data. rewrite acc_insert. reflexivity.
Qed.
Lemma acc_lam L x l k :
  acc (put_lamports L x l) k = if x =? k then Account l (a_owner (acc L k)) (a_data (acc L k)) else acc L k.
Proof.
  unfold put_lamports. destruct (Z.eqb_spec x k) as [->|]; [apply acc_insert|apply acc_insert_ne; assumption].
Qed.
Lemma acc_ins L x a k : acc (<[x := a]> L) k = if x =? k then a else acc L k.
Proof. destruct (Z.eqb_spec x k) as [->|]; [apply acc_insert|apply acc_insert_ne; assumption]. Qed.

(** ** Methods *)
Ltac both H1 H2 :=
  repeat match type of H1 with rbind ?x _ = Ok _ => first
    [ match type of H2 with rbind x _ = Ok _ => idtac end;
      let E := fresh "E" in destruct x eqn:E; cbn [rbind] in H1, H2; [|discriminate]
    | let E := fresh "E" in destruct x eqn:E; cbn [rbind] in H1; [|discriminate];
      match type of H2 with rbind ?y _ = Ok _ => let F := fresh "F" in destruct y eqn:F; cbn [rbind] in H2; [|discriminate] end ]
  end.

Lemma delegate_add_det ts a ci t1 t2 d x1 x2 d1 d2 :
  delegate_add ts a ci t1 d = Ok (x1, d1) -> delegate_add ts a ci t2 d = Ok (x2, d2) -> d1 = d2.
Proof.
  unfold delegate_add. intros H1 H2. destruct d as [rd|]; [|congruence].
  both H1 H2. congruence.
Qed.
Lemma delegate_sub_det ts a ci t1 t2 d x1 x2 d1 d2 :
  delegate_sub ts a ci t1 d = Ok (x1, d1) -> delegate_sub ts a ci t2 d = Ok (x2, d2) -> d1 = d2.
Proof.
  unfold delegate_sub. intros H1 H2. destruct d as [rd|]; [|congruence].
  both H1 H2. congruence.
Qed.

Lemma deposit_det ts w1 w2 m a p d x1 m1 d1 x2 m2 d2 :
  wp_ci w1 = wp_ci w2 -> deposit ts w1 m a p d = Ok (x1, m1, d1) -> deposit ts w2 m a p d = Ok (x2, m2, d2) ->
  m1 = m2 /\ d1 = d2.
Proof.
  intros E H1 H2. unfold deposit in *. rewrite <- E in H2. both H1 H2.
  repeat match goal with q : (_ * _)%type |- _ => destruct q end.
  match goal with A : delegate_add _ _ _ ?u _ = Ok (_, ?o), B : delegate_add _ _ _ ?v _ = Ok (_, ?o') |- _ =>
    assert (o = o') by exact (delegate_add_det _ _ _ _ _ _ _ _ _ _ A B) end.
  split; congruence.
Qed.

Lemma withdraw_det ts w1 w2 m a d x1 m1 d1 x2 m2 d2 :
  wp_ci w1 = wp_ci w2 -> withdraw ts w1 m a d = Ok (x1, m1, d1) -> withdraw ts w2 m a d = Ok (x2, m2, d2) ->
  m1 = m2 /\ d1 = d2 /\ wp_ci x1 = wp_ci x2.
Proof.
  intros E H1 H2. unfold withdraw in *. rewrite <- E in H2. both H1 H2.
  repeat match goal with q : (_ * _)%type |- _ => destruct q end.
  repeat (both H1 H2; repeat match goal with q : (_ * _)%type |- _ => destruct q end).
  match goal with A : delegate_sub _ _ _ ?u _ = Ok (_, ?o), B : delegate_sub _ _ _ ?v _ = Ok (_, ?o') |- _ =>
    assert (o = o') by exact (delegate_sub_det _ _ _ _ _ _ _ _ _ _ A B) end.
  injection H1 as <- <- <-. injection H2 as <- <- <-. cbn. repeat split; congruence.
Qed.

Lemma slash_det ts w1 w2 m n wt dt x1 m1 x2 m2 :
  wp_ci w1 = wp_ci w2 -> slash ts w1 m n wt dt = Ok (x1, m1) -> slash ts w2 m n wt dt = Ok (x2, m2) -> m1 = m2.
Proof.
  intros E H1 H2. unfold slash in *.
  destruct (withdraw ts w1 m wt None) as [[[y1 z1] o1]|] eqn:A; [|discriminate].
  destruct (withdraw ts w2 m wt None) as [[[y2 z2] o2]|] eqn:B; [|discriminate].
  cbn [rbind] in H1, H2. destruct (withdraw_det _ _ _ _ _ _ _ _ _ _ _ _ E A B) as (<- & _ & _).
  destruct dt; [|congruence]. both H1 H2. congruence.
Qed.

Lemma extend_det ts w1 w2 m op np st b a d x1 m1 d1 x2 m2 d2 :
  wp_ci w1 = wp_ci w2 -> extend ts w1 m op np st b a d = Ok (x1, m1, d1) ->
  extend ts w2 m op np st b a d = Ok (x2, m2, d2) -> m1 = m2 /\ d1 = d2.
Proof.
  intros E H1 H2. unfold extend in *. rewrite <- E in H2.
  destruct (refresh ts (wp_ci w1) m) as [m0|]; [|discriminate]. cbn [rbind] in H1, H2.
  destruct (if lockup_eqb op LFlex then Ok 0 else end_timestamp op st) as [ex|]; [|discriminate]. cbn [rbind] in H1, H2.
  destruct (safe_mul64 b (multiplier LFlex)) as [fl|]; [|discriminate]. cbn [rbind] in H1, H2.
  match type of H1 with rbind ?x _ = _ => destruct x as [[y1 t1]|] eqn:A; [|discriminate] end.
  match type of H2 with rbind ?x _ = _ => destruct x as [[y2 t2]|] eqn:B; [|discriminate] end.
  cbn [rbind] in H1, H2.
  assert (y1 = y2) as <-.
  { destruct (ts <? ex); both A B; congruence. }
  both H1 H2. repeat match goal with q : (_ * _)%type |- _ => destruct q end.
  match goal with C : delegate_sub _ _ _ ?u _ = Ok (_, ?o), F : delegate_sub _ _ _ ?v _ = Ok (_, ?o') |- _ =>
    assert (o = o') as <- by exact (delegate_sub_det _ _ _ _ _ _ _ _ _ _ C F) end.
  eapply deposit_det; [|exact H1|exact H2]. cbn. assumption.
Qed.

Lemma change_det ts w1 w2 m n o a x1 m1 od1 nd1 x2 m2 od2 nd2 :
  wp_ci w1 = wp_ci w2 -> change_delegate ts w1 m n o a = Ok (x1, m1, od1, nd1) ->
  change_delegate ts w2 m n o a = Ok (x2, m2, od2, nd2) -> m1 = m2 /\ od1 = od2 /\ nd1 = nd2.
Proof.
  intros E H1 H2. unfold change_delegate in *. rewrite <- E in H2. both H1 H2.
  repeat match goal with q : (_ * _)%type |- _ => destruct q end.
  both H1 H2. repeat match goal with q : (_ * _)%type |- _ => destruct q end.
  match goal with C : delegate_sub _ _ _ ?u _ = Ok (_, ?o), F : delegate_sub _ _ _ ?v _ = Ok (_, ?o') |- _ =>
    assert (o = o') by exact (delegate_sub_det _ _ _ _ _ _ _ _ _ _ C F) end.
  match goal with C : delegate_add _ _ _ ?u _ = Ok (_, ?o), F : delegate_add _ _ _ ?v _ = Ok (_, ?o') |- _ =>
    assert (o = o') by exact (delegate_add_det _ _ _ _ _ _ _ _ _ _ C F) end.
  repeat split; congruence.
Qed.

Lemma dlg_det L1 L2 D k : acc L1 D = acc L2 D -> dlg_of L1 D k = dlg_of L2 D k.
Proof. intros E. unfold dlg_of. rewrite E. reflexivity. Qed.
Lemma data_det L1 L2 k : acc L1 k = acc L2 k -> data_of L1 k = data_of L2 k.
Proof. unfold data_of. congruence. Qed.

(** ** Instructions *)
Lemma accounts_eq ms l1 l2 : accounts_are ms l1 -> accounts_are ms l2 -> length l1 = length l2 -> l1 = l2.
Proof.
  intros [r1 H1] [r2 H2] Hl. rewrite H1 in H2. clear H1.
  revert l2 Hl H2. induction l1 as [|x l1 IH]; intros [|y l2] Hl H2; try discriminate; [reflexivity|].
  cbn in H2. injection H2 as -> H2. f_equal. apply IH; [|assumption]. cbn in Hl. lia.
Qed.
Lemma account_in ms l n k : accounts_are ms l -> (n < length l)%nat -> account_at ms n k -> nth_error l n = Some k.
Proof.
  intros [r E] Hn H. unfold account_at in H. rewrite E, nth_error_app1 in H by assumption. assumption.
Qed.

(** the inputs of the instruction agree *)
Definition same_inputs (ms : list meta) (i : ix) (L1 L2 : ledger) : Prop :=
  (forall n k, In n (may_change i) -> n <> pool_position i -> account_at ms n k -> acc L1 k = acc L2 k) /\
  (forall P w1 w2, account_at ms (pool_position i) P -> data_of L1 P = DPool w1 -> data_of L2 P = DPool w2 ->
     wp_ci w1 = wp_ci w2).
(** so do its outputs *)
Definition same_outputs (ms : list meta) (i : ix) (L1 L2 L1' L2' : ledger) : Prop :=
  (forall n k, In n (may_change i) -> n <> pool_position i -> account_at ms n k -> acc L1' k = acc L2' k) /\
  (forall P, account_at ms (pool_position i) P -> acc L1 P = acc L2 P -> acc L1' P = acc L2' P).

Lemma outputs_by ms i L1 L2 L1' L2' l :
  accounts_are ms l -> (forall n, In n (pool_position i :: may_change i) -> (n < length l)%nat) ->
  (forall n k, In n (may_change i) -> n <> pool_position i -> nth_error l n = Some k -> acc L1' k = acc L2' k) ->
  (forall P, nth_error l (pool_position i) = Some P -> acc L1 P = acc L2 P -> acc L1' P = acc L2' P) ->
  same_outputs ms i L1 L2 L1' L2'.
Proof.
  intros A B C D. split.
  - intros n k Hn Hne Hk. apply (C n k Hn Hne). eapply account_in; [eassumption| |eassumption]. apply B. right. assumption.
  - intros P HP. apply D. eapply account_in; [eassumption| |eassumption]. apply B. left. reflexivity.
Qed.

Ltac same_accts :=
  match goal with A : accounts_are ?ms ?l1, B : accounts_are ?ms ?l2 |- _ =>
    let E := fresh in assert (E : l2 = l1) by (apply (accounts_eq ms); [exact B|exact A|reflexivity]);
    injection E; clear A E; intros; subst end.
Ltac cases := repeat match goal with |- context [?x =? ?y] => destruct (Z.eqb_spec x y) end.
Ltac writes :=
  unfold put_mining, put_pool; repeat (first [rewrite acc_put | rewrite acc_lam | rewrite acc_ins]).
Ltac finish :=
  eapply outputs_by; [eassumption|cbn [In may_change pool_position length]; intros; lia| |];
  [ cbn [In may_change pool_position]; intros ?n ?k ?Hn ?Hne ?Hk;
    repeat match goal with H : _ \/ _ |- _ => destruct H end; subst; try contradiction; try congruence;
    match goal with H : nth_error _ _ = Some _ |- _ => cbn in H; injection H; clear H; intros; subst end
  | cbn [may_change pool_position]; intros ?P ?Hk ?HE; cbn in Hk; injection Hk; clear Hk; intros; subst ].

Ltac reads H n := match goal with
  | A : accounts_are _ _ |- _ => rewrite (H n _ ltac:(cbn [may_change In]; tauto) ltac:(discriminate) ltac:(at_)) end.

Section det.
Context (e : env) (ts : Z) (ms : list meta) (L1 L2 : ledger).

Lemma stake_outputs i L1' L2' P k auth D w1 w2 m' d' l1 l2 :
  pool_position i = 0%nat -> may_change i = [0; 1; 3]%nat ->
  accounts_are ms [P; k; auth; D] -> k <> P -> D <> P ->
  acc L1 k = acc L2 k -> acc L1 D = acc L2 D ->
  (acc L1 P = acc L2 P -> w1 = w2) ->
  L1' = put_dlg (put_mining (put_pool L1 P w1) k m') D d' ->
  L2' = put_dlg (put_mining (put_pool L2 P w2) k m') D d' ->
  l1 = L1 -> l2 = L2 ->
  same_outputs ms i l1 l2 L1' L2'.
Proof.
  intros Hp Hm A Hk HD Ek ED Ew -> -> -> ->.
  eapply outputs_by; [eassumption| | |].
  - rewrite Hp, Hm. cbn [In length]. intros; lia.
  - rewrite Hp, Hm. cbn [In]. intros n x [<-|[<-|[<-|[]]]] Hn Hx; [contradiction| |];
      cbn in Hx; injection Hx as <-; destruct d'; cbn [put_dlg]; writes; cases; subst; congruence.
  - rewrite Hp. intros x Hx E. cbn in Hx. injection Hx as <-. rewrite (Ew E).
    destruct d'; cbn [put_dlg]; writes; cases; subst; congruence.
Qed.

Lemma determined i L1' L2' r1 r2 :
  process e ts ms i L1 = Ok (L1', r1) -> process e ts ms i L2 = Ok (L2', r2) ->
  same_inputs ms i L1 L2 -> r1 = r2 /\ same_outputs ms i L1 L2 L1' L2'.
Proof.
  intros H1 H2 [HA HC].
  destruct i; cbn [process] in *.
  all: try (apply no_ret_ok in H1 as [H1 ->]; apply no_ret_ok in H2 as [H2 ->]; split; [reflexivity|]).
  - (* InitializePool *)
    apply init_pool_inv in H1 as (P & mint & V & payer & auth & bump & w & K1 & K2 & A & _ & _ & _ & _ & _ & _ & _ & Hv & Hn1 & Hn2 & Hc & Hi & ->).
    apply init_pool_inv in H2 as (P' & mint' & V' & payer' & auth' & bump' & w' & K1' & K2' & A' & _ & _ & _ & _ & _ & _ & _ & Hv' & _ & _ & Hc' & Hi' & ->).
    same_accts. rewrite Hv in Hv'. injection Hv' as <-.
    apply create_account_inv in Hc as (_ & _ & _ & _ & _ & _ & _ & _ & N & _ & ->).
    apply create_account_inv in Hc' as (_ & _ & _ & _ & _ & _ & _ & _ & _ & _ & ->).
    apply initialize_account_inv in Hi as (_ & Hz & _ & ->). apply initialize_account_inv in Hi' as (_ & Hz' & _ & ->).
    pose proof (HA 2%nat V ltac:(cbn; tauto) ltac:(discriminate) ltac:(at_)) as EV.
    pose proof (HA 3%nat payer ltac:(cbn; tauto) ltac:(discriminate) ltac:(at_)) as EP.
    finish; writes; cases; subst; congruence.
  - (* FillVault *)
    apply fill_inv in H1 as (P & mint & V & auth & S & w & w' & A & _ & _ & _ & _ & _ & _ & Hd & _ & _ & _ & Hf & Ht).
    apply fill_inv in H2 as (P' & mint' & V' & auth' & S' & w2 & w2' & A' & _ & _ & _ & _ & _ & _ & Hd' & _ & _ & _ & Hf' & Ht').
    same_accts.
    apply spl_transfer_inv in Ht as (s & v & Hs & Hv & _ & _ & _ & _ & _ & _ & Hc).
    apply spl_transfer_inv in Ht' as (s' & v' & Hs' & Hv' & _ & _ & _ & _ & _ & _ & Hc').
    pose proof (HA 2%nat V ltac:(cbn; tauto) ltac:(discriminate) ltac:(at_)) as EV.
    pose proof (HA 4%nat S ltac:(cbn; tauto) ltac:(discriminate) ltac:(at_)) as ES.
    assert (NS : P <> S) by (intros ->; unfold put_pool in Hs; rewrite data_put in Hs; discriminate).
    assert (NV : P <> V) by (intros ->; unfold put_pool in Hv; rewrite data_put in Hv; discriminate).
    unfold data_of in Hs, Hv, Hs', Hv'. unfold put_pool in Hs, Hv, Hs', Hv'.
    rewrite acc_put_data_ne in Hs, Hv, Hs', Hv' by assumption.
    assert (s' = s) as -> by congruence. assert (v' = v) as -> by congruence.
    assert (EW : acc L1 P = acc L2 P -> w' = w2').
    { intros E. apply data_det in E. rewrite E, Hd' in Hd. injection Hd as ->. congruence. }
    destruct Hc as [[Z1 ->]|(Z1 & _ & ->)], Hc' as [[Z2 ->]|(Z2 & _ & ->)]; try contradiction;
      finish; writes; cases; subst; try congruence; rewrite ?(EW HE); congruence.
  - (* InitializeMining *)
    apply init_mining_inv in H1 as (P & k & payer & bump & K & A & _ & _ & _ & Hf & Hc & ->).
    apply init_mining_inv in H2 as (P' & k' & payer' & bump' & K' & A' & _ & _ & _ & Hf' & Hc' & ->).
    same_accts. rewrite Hf in Hf'. injection Hf' as <-.
    apply create_account_inv in Hc as (_ & _ & _ & _ & _ & _ & _ & _ & N & _ & ->).
    apply create_account_inv in Hc' as (_ & _ & _ & _ & _ & _ & _ & _ & _ & _ & ->).
    pose proof (HA 1%nat k ltac:(cbn; tauto) ltac:(discriminate) ltac:(at_)) as EV.
    pose proof (HA 2%nat payer ltac:(cbn; tauto) ltac:(discriminate) ltac:(at_)) as EP.
    finish; writes; cases; subst; congruence.
  - (* DepositMining *)
    apply deposit_inv in H1 as (P & k & auth & D & w & m & w' & m' & d' & A & C & Hd & _ & He & E1).
    apply deposit_inv in H2 as (P2 & k2 & auth2 & D2 & w2 & m2 & w2' & m2' & d2' & A2 & C2 & _ & _ & He2 & E2).
    same_accts.
    pose proof (HA 1%nat k ltac:(cbn; tauto) ltac:(discriminate) ltac:(at_)) as EK.
    pose proof (HA 3%nat D ltac:(cbn; tauto) ltac:(discriminate) ltac:(at_)) as ED.
    destruct C as [_ _ _ X1 X2 _ _ _ _ X3], C2 as [_ _ _ Y1 Y2 _ _ _ _ _].
    assert (m2 = m) as -> by (rewrite (data_det _ _ _ EK) in X2; congruence).
    rewrite (dlg_det _ _ _ k ED) in He.
    pose proof (HC P w w2 ltac:(at_) X1 Y1) as EC.
    destruct (deposit_det _ _ _ _ _ _ _ _ _ _ _ _ _ EC He He2) as [<- <-].
    assert (EW : acc L1 P = acc L2 P -> w' = w2').
    { intros E. apply data_det in E. rewrite E, Y1 in X1. injection X1 as ->. congruence. }
    eapply (stake_outputs _ _ _ P k auth D w' w2' m' d'); try eassumption; try reflexivity.
    destruct Hd as [->|(_ & ? & _)]; assumption.
  - (* WithdrawMining *)
    apply withdraw_inv in H1 as (P & k & auth & D & w & m & w' & m' & d' & A & C & Hd & _ & He & E1).
    apply withdraw_inv in H2 as (P2 & k2 & auth2 & D2 & w2 & m2 & w2' & m2' & d2' & A2 & C2 & _ & _ & He2 & E2).
    same_accts.
    pose proof (HA 1%nat k ltac:(cbn; tauto) ltac:(discriminate) ltac:(at_)) as EK.
    pose proof (HA 3%nat D ltac:(cbn; tauto) ltac:(discriminate) ltac:(at_)) as ED.
    destruct C as [_ _ _ X1 X2 _ _ _ _ X3], C2 as [_ _ _ Y1 Y2 _ _ _ _ _].
    assert (m2 = m) as -> by (rewrite (data_det _ _ _ EK) in X2; congruence).
    rewrite (dlg_det _ _ _ k ED) in He.
    pose proof (HC P w w2 ltac:(at_) X1 Y1) as EC.
    destruct (withdraw_det _ _ _ _ _ _ _ _ _ _ _ _ EC He He2) as (<- & <- & _).
    assert (EW : acc L1 P = acc L2 P -> w' = w2').
    { intros E. apply data_det in E. rewrite E, Y1 in X1. injection X1 as ->. congruence. }
    eapply (stake_outputs _ _ _ P k auth D w' w2' m' d'); try eassumption; try reflexivity.
    destruct Hd as [->|(_ & ? & _)]; assumption.
  - (* Claim *)
    destruct (process_claim e ts ms L1) as [[K1 x1]|] eqn:Q1; [|discriminate]. injection H1 as -> <-.
    destruct (process_claim e ts ms L2) as [[K2 x2]|] eqn:Q2; [|discriminate]. injection H2 as -> <-.
    apply claim_inv in Q1 as (P & mint & V & k & owner & auth & T & w & m & m1 & t & A & _ & _ & _ & _ & _ & _ & _ & Ht & _ & Hw & _ & Hm & _ & _ & Hne & _ & Hr & Ex & Hc).
    apply claim_inv in Q2 as (P' & mint' & V' & k' & owner' & auth' & T' & w' & m' & m1' & t' & A' & _ & _ & _ & _ & _ & _ & _ & Ht' & _ & Hw' & _ & Hm' & _ & _ & _ & _ & Hr' & Ex' & Hc').
    same_accts.
    pose proof (HA 2%nat V ltac:(cbn; tauto) ltac:(discriminate) ltac:(at_)) as EV.
    pose proof (HA 3%nat k ltac:(cbn; tauto) ltac:(discriminate) ltac:(at_)) as EK.
    pose proof (HA 6%nat T ltac:(cbn; tauto) ltac:(discriminate) ltac:(at_)) as ET.
    assert (m' = m) as -> by (rewrite (data_det _ _ _ EK) in Hm; congruence).
    rewrite (HC P w w' ltac:(at_) Hw Hw'), Hr' in Hr. injection Hr as ->.
    split; [reflexivity|]. cbv zeta in Hc, Hc'.
    destruct Hc as [[Z1 ->]|[Z1 Hs]], Hc' as [[Z2 ->]|[Z2 Hs']]; try lia.
    + finish; writes; cases; subst; congruence.
    + apply spl_transfer_inv in Hs as (s & v & Hs & Hv & _ & _ & _ & _ & _ & _ & Hc).
      apply spl_transfer_inv in Hs' as (s' & v' & Hs' & Hv' & _ & _ & _ & _ & _ & _ & Hc').
      assert (NS : k <> V) by (intros ->; unfold put_mining in Hs; rewrite data_put in Hs; discriminate).
      assert (NV : k <> T) by (intros ->; unfold put_mining in Hv; rewrite data_put in Hv; discriminate).
      unfold data_of in Hs, Hv, Hs', Hv'. unfold put_mining in Hs, Hv, Hs', Hv'.
      rewrite acc_put_data_ne in Hs, Hv, Hs', Hv' by assumption.
      assert (s' = s) as -> by congruence. assert (v' = v) as -> by congruence.
      destruct Hc as [[Z3 ->]|(Z3 & _ & ->)], Hc' as [[Z4 ->]|(Z4 & _ & ->)]; try contradiction;
        finish; writes; cases; subst; congruence.
  - (* ExtendStake *)
    apply extend_inv in H1 as (P & k & auth & D & w & m & w' & m' & d' & A & C & Hd & _ & He & E1).
    apply extend_inv in H2 as (P2 & k2 & auth2 & D2 & w2 & m2 & w2' & m2' & d2' & A2 & C2 & _ & _ & He2 & E2).
    same_accts.
    pose proof (HA 1%nat k ltac:(cbn; tauto) ltac:(discriminate) ltac:(at_)) as EK.
    pose proof (HA 3%nat D ltac:(cbn; tauto) ltac:(discriminate) ltac:(at_)) as ED.
    destruct C as [_ _ _ X1 X2 _ _ _ _ X3], C2 as [_ _ _ Y1 Y2 _ _ _ _ _].
    assert (m2 = m) as -> by (rewrite (data_det _ _ _ EK) in X2; congruence).
    rewrite (dlg_det _ _ _ k ED) in He.
    pose proof (HC P w w2 ltac:(at_) X1 Y1) as EC.
    destruct (extend_det _ _ _ _ _ _ _ _ _ _ _ _ _ _ _ _ EC He He2) as [<- <-].
    assert (EW : acc L1 P = acc L2 P -> w' = w2').
    { intros E. apply data_det in E. rewrite E, Y1 in X1. injection X1 as ->. congruence. }
    eapply (stake_outputs _ _ _ P k auth D w' w2' m' d'); try eassumption; try reflexivity.
    destruct Hd as [->|(_ & ? & _)]; assumption.
  - (* DistributeRewards *)
    apply distribute_inv in H1 as (P & auth & w & r & w' & A & _ & _ & Hd & _ & Hr & Hw & ->).
    apply distribute_inv in H2 as (P2 & auth2 & w2 & r2 & w2' & A2 & _ & _ & Hd2 & _ & Hr2 & Hw2 & ->).
    same_accts. finish.
    assert (w2' = w') as -> by (apply data_det in HE; congruence).
    writes; cases; subst; congruence.
  - (* CloseMining *)
    apply close_inv in H1 as (k & owner & T & auth & P & w & m & m1 & A & _ & _ & _ & _ & _ & _ & _ & Hne & Hd & _ & _ & _ & _ & _ & ->).
    apply close_inv in H2 as (k2 & owner2 & T2 & auth2 & P2 & w2 & m2 & m12 & A2 & _ & _ & _ & _ & _ & _ & _ & _ & Hd2 & _ & _ & _ & _ & _ & ->).
    same_accts.
    pose proof (HA 0%nat k ltac:(cbn; tauto) ltac:(discriminate) ltac:(at_)) as EK.
    pose proof (HA 2%nat T ltac:(cbn; tauto) ltac:(discriminate) ltac:(at_)) as ET.
    unfold owner_of. finish; writes; cases; subst; congruence.
  - (* ChangeDelegate *)
    apply change_inv in H1 as (P & k & auth & owner & O & N & w & m & w' & m' & od & nd & A & C & _ & Hd & _ & _ & HON & HOP & He & ->).
    apply change_inv in H2 as (P2 & k2 & auth2 & owner2 & O2 & N2 & w2 & m2 & w2' & m2' & od2 & nd2 & A2 & C2 & _ & _ & _ & _ & _ & _ & He2 & ->).
    same_accts.
    pose proof (HA 1%nat k ltac:(cbn; tauto) ltac:(discriminate) ltac:(at_)) as EK.
    pose proof (HA 4%nat O ltac:(cbn; tauto) ltac:(discriminate) ltac:(at_)) as EO.
    pose proof (HA 5%nat N ltac:(cbn; tauto) ltac:(discriminate) ltac:(at_)) as EN.
    destruct C as [_ _ _ X1 X2 _ _ _ _ X3], C2 as [_ _ _ Y1 Y2 _ _ _ _ _].
    assert (m2 = m) as -> by (rewrite (data_det _ _ _ EK) in X2; congruence).
    rewrite (dlg_det _ _ _ k EO), (dlg_det _ _ _ k EN) in He.
    pose proof (HC P w w2 ltac:(at_) X1 Y1) as EC.
    destruct (change_det _ _ _ _ _ _ _ _ _ _ _ _ _ _ _ EC He He2) as (<- & <- & <-).
    assert (EW : acc L1 P = acc L2 P -> w' = w2').
    { intros E. apply data_det in E. rewrite E, Y1 in X1. injection X1 as ->. congruence. }
    assert (NP : N <> P) by (destruct Hd as [->|(_ & ? & _)]; assumption).
    finish; destruct od, nd; cbn [put_dlg]; writes; cases; subst; try congruence; rewrite (EW HE); congruence.
  - (* Slash *)
    apply slash_inv in H1 as (auth & P & k & w & m & w' & m' & A & C & He & ->).
    apply slash_inv in H2 as (auth2 & P2 & k2 & w2 & m2 & w2' & m2' & A2 & C2 & He2 & ->).
    same_accts.
    pose proof (HA 2%nat k ltac:(cbn; tauto) ltac:(discriminate) ltac:(at_)) as EK.
    destruct C as [_ _ _ X1 X2 _ _ _ _ X3], C2 as [_ _ _ Y1 Y2 _ _ _ _ _].
    assert (m2 = m) as -> by (rewrite (data_det _ _ _ EK) in X2; congruence).
    pose proof (HC P w w2 ltac:(at_) X1 Y1) as EC.
    pose proof (slash_det _ _ _ _ _ _ _ _ _ _ _ EC He He2) as <-.
    assert (EW : acc L1 P = acc L2 P -> w' = w2').
    { intros E. apply data_det in E. rewrite E, Y1 in X1. injection X1 as ->. congruence. }
    finish; writes; cases; subst; try congruence; rewrite (EW HE); congruence.
  - (* DecreaseRewards *)
    apply decrease_inv in H1 as (auth & P & k & w & m & m' & A & C & He & ->).
    apply decrease_inv in H2 as (auth2 & P2 & k2 & w2 & m2 & m2' & A2 & C2 & He2 & ->).
    same_accts.
    pose proof (HA 2%nat k ltac:(cbn; tauto) ltac:(discriminate) ltac:(at_)) as EK.
    destruct C as [_ _ _ X1 X2 _ _ _ _ X3], C2 as [_ _ _ Y1 Y2 _ _ _ _ _].
    assert (m2 = m) as -> by (rewrite (data_det _ _ _ EK) in X2; congruence).
    assert (m2' = m') as -> by congruence.
    finish; writes; cases; subst; congruence.
Qed.
End det.
