(** Conservation of lamports and of tokens of each mint. *)
From stdpp Require Import gmap.
From Verif Require Import Base OMap State Ledger Program ResLemmas MapSum LedgerLemmas LedgerSpec
  FrameLemmas CodecLemmas WfLemmas History HistoryLemmas Changes.

(** all lamports; all tokens of a mint in accounts of the token program *)
Definition lamports_total (L : ledger) : Z := msum a_lamports L.
Definition tokens_in (e : env) (mint : pubkey) (a : account) : Z :=
  match a_data a with
  | DToken t => if (a_owner a =? spl_token_id e) && (t_mint t =? mint) then t_amount t else 0
  | _ => 0
  end.
Definition tokens_total (e : env) (mint : pubkey) (L : ledger) : Z := msum (tokens_in e mint) L.

Section sum.
Context (f : account -> Z) (Hf : f empty_account = 0).
Lemma msum_ins L k a : msum f (<[k := a]> L) = msum f L - f (acc L k) + f a.
Proof.
  unfold acc, ledger in *. destruct (L !! k) as [b|] eqn:E.
  - etransitivity; [exact (msum_insert f L k b a E)|]. lia.
  - etransitivity; [exact (msum_insert_new f L k a E)|]. lia.
Qed.
End sum.

Lemma lam_put L k d : lamports_total (put_data L k d) = lamports_total L.
Proof. unfold lamports_total, put_data. rewrite msum_ins by reflexivity. cbn. lia. Qed.
Lemma lam_put_dlg L k d : lamports_total (put_dlg L k d) = lamports_total L.
Proof. destruct d; cbn [put_dlg]; [apply lam_put|reflexivity]. Qed.
Lemma lam_put_lam L k x : lamports_total (put_lamports L k x) = lamports_total L - a_lamports (acc L k) + x.
Proof. unfold lamports_total, put_lamports. rewrite msum_ins by reflexivity. cbn. lia. Qed.
Lemma lam_ins L k a : lamports_total (<[k := a]> L) = lamports_total L - a_lamports (acc L k) + a_lamports a.
Proof. unfold lamports_total. apply msum_ins. reflexivity. Qed.

Lemma lam_transfer ms L s d a x L' : spl_transfer ms L s d a x = Ok L' -> lamports_total L' = lamports_total L.
Proof.
  intros H. apply spl_transfer_inv in H as (? & ? & _ & _ & _ & _ & _ & _ & _ & _ & [[_ ->]|(_ & _ & ->)]); [reflexivity|].
  rewrite !lam_put. reflexivity.
Qed.
Lemma lam_create ms L from to lam space owner L' :
  create_account ms L from to lam space owner = Ok L' -> lamports_total L' = lamports_total L.
Proof.
  intros H. apply create_account_inv in H as (_ & _ & _ & H0 & _ & _ & _ & _ & Hne & _ & ->).
  rewrite lam_ins, lam_put_lam. rewrite acc_put_lam.
  destruct (Z.eqb_spec to from); [congruence|]. cbn. lia.
Qed.

Lemma lamports_conserved e ts ms i L L' r :
  env_ok e -> exec e ts ms i L = Ok (L', r) -> lamports_total L' = lamports_total L.
Proof.
  intros Henv H. apply exec_inv in H as [H _].
  destruct i; cbn [process] in *; try (apply no_ret_ok in H as [H _]).
  - apply init_pool_inv in H as (pool & mint & vault & payer & auth & bump & w & L1 & L2 & _ & _ & _ & _ & _ & _ & _ & _ & _ & _ & _ & Hc & Ha & ->).
    apply lam_create in Hc. apply initialize_account_inv in Ha as (_ & _ & _ & ->).
    unfold put_pool. rewrite !lam_put. assumption.
  - apply fill_inv in H as (pool & mint & vault & auth & src & w & w' & _ & _ & _ & _ & _ & _ & _ & _ & _ & _ & _ & _ & Ht).
    apply lam_transfer in Ht. rewrite Ht. apply lam_put.
  - apply init_mining_inv in H as (pool & mining & payer & bump & L1 & _ & _ & _ & _ & _ & Hc & ->).
    apply lam_create in Hc. unfold put_mining. rewrite lam_put. assumption.
  - apply deposit_inv in H as (pool & mining & auth & dm & w & m & w' & m' & d' & _ & _ & _ & _ & _ & ->).
    rewrite lam_put_dlg. unfold put_mining, put_pool. rewrite !lam_put. reflexivity.
  - apply withdraw_inv in H as (pool & mining & auth & dm & w & m & w' & m' & d' & _ & _ & _ & _ & _ & ->).
    rewrite lam_put_dlg. unfold put_mining, put_pool. rewrite !lam_put. reflexivity.
  - destruct (process_claim e ts ms L) as [[L1 x]|] eqn:E; [|discriminate]. injection H as <- <-.
    apply claim_inv in E as (pool & mint & vault & mining & owner & auth & dest & w & m & m1 & t & _ & _ & _ & _ & _ & _ & _ & _ & _ & _ & _ & _ & _ & _ & _ & _ & _ & _ & _ & Hc).
    cbv zeta in Hc. destruct Hc as [[_ ->]|[_ Ht]]; [apply lam_put|].
    apply lam_transfer in Ht. rewrite Ht. apply lam_put.
  - apply extend_inv in H as (pool & mining & auth & dm & w & m & w' & m' & d' & _ & _ & _ & _ & _ & ->).
    rewrite lam_put_dlg. unfold put_mining, put_pool. rewrite !lam_put. reflexivity.
  - apply distribute_inv in H as (pool & auth & w & r0 & w' & _ & _ & _ & _ & _ & _ & _ & ->). apply lam_put.
  - apply close_inv in H as (mining & owner & target & auth & pool & w & m & m1 & _ & Hm & Ht & _ & _ & _ & _ & _ & _ & _ & _ & _ & _ & _ & _ & ->).
    rewrite lam_ins, lam_put_lam, acc_put_lam.
    destruct (Z.eqb_spec mining target) as [->|]; [pose proof (eo_sys _ Henv); congruence|]. cbn. lia.
  - apply change_inv in H as (pool & mining & auth & owner & od & nd & w & m & w' & m' & od' & nd' & _ & _ & _ & _ & _ & _ & _ & _ & _ & ->).
    rewrite !lam_put_dlg. unfold put_mining, put_pool. rewrite !lam_put. reflexivity.
  - apply slash_inv in H as (auth & pool & mining & w & m & w' & m' & _ & _ & _ & ->).
    unfold put_mining, put_pool. rewrite !lam_put. reflexivity.
  - apply decrease_inv in H as (auth & pool & mining & w & m & m' & _ & _ & _ & ->). apply lam_put.
Qed.

(** ** Tokens *)
Section tok.
Context (e : env) (Henv : env_ok e) (mint : pubkey).

Lemma tok_foreign a : a_owner a <> spl_token_id e -> tokens_in e mint a = 0.
Proof.
  intros H. unfold tokens_in. destruct (a_data a); auto.
  destruct (Z.eqb_spec (a_owner a) (spl_token_id e)); [contradiction|reflexivity].
Qed.

Lemma tok_ins L k a :
  tokens_total e mint (<[k := a]> L) = tokens_total e mint L - tokens_in e mint (acc L k) + tokens_in e mint a.
Proof. unfold tokens_total. apply msum_ins. reflexivity. Qed.

Lemma tok_put L k d : owner_of L k = program_id e -> tokens_total e mint (put_data L k d) = tokens_total e mint L.
Proof.
  intros H. unfold put_data. rewrite tok_ins.
  rewrite !tok_foreign; [lia| |]; cbn; unfold owner_of in H; pose proof (eo_tok _ Henv); congruence.
Qed.

Lemma tok_put_dlg L k d : owner_of L k = program_id e -> tokens_total e mint (put_dlg L k d) = tokens_total e mint L.
Proof. intros. destruct d; cbn [put_dlg]; [apply tok_put; assumption|reflexivity]. Qed.

Lemma tok_put_lam L k x : tokens_total e mint (put_lamports L k x) = tokens_total e mint L.
Proof. unfold put_lamports. rewrite tok_ins. unfold tokens_in. cbn. destruct (a_data (acc L k)); lia. Qed.

Lemma owner_put_dlg L k d k' : owner_of (put_dlg L k d) k' = owner_of L k'.
Proof. destruct d; cbn [put_dlg]; [apply owner_put|reflexivity]. Qed.

Lemma tok_transfer ms L s d a x L' :
  owner_of L s = spl_token_id e -> owner_of L d = spl_token_id e ->
  spl_transfer ms L s d a x = Ok L' -> tokens_total e mint L' = tokens_total e mint L.
Proof.
  intros Hs Hd H. apply spl_transfer_inv in H as (ts & td & Es & Ed & _ & _ & _ & _ & Em & _ & [[_ ->]|(Hne & _ & ->)]); [reflexivity|].
  unfold put_data. rewrite !tok_ins, !acc_insert_ne by assumption.
  unfold tokens_in. cbn [a_data a_owner t_mint t_amount]. unfold data_of, owner_of in *.
  rewrite Es, Ed, Hs, Hd, Z.eqb_refl, Em. cbn [andb t_amount]. destruct (t_mint td =? mint); cbn [t_amount]; lia.
Qed.

Lemma tok_create ms L from to lam space owner L' :
  create_account ms L from to lam space owner = Ok L' ->
  tokens_total e mint L' = tokens_total e mint L /\ tokens_in e mint (acc L' to) = 0 /\
  acc L' to = Account lam owner (zeros space) /\
  forall k, k <> to -> owner_of L' k = owner_of L k.
Proof.
  intros H. apply create_account_inv in H as (_ & _ & _ & H0 & Ho & _ & _ & _ & Hne & _ & ->).
  assert (E : tokens_in e mint (Account lam owner (zeros space)) = 0).
  { unfold tokens_in, zeros. cbn. destruct (space =? 0), (space =? MINING_LEN), (space =? POOL_LEN); reflexivity. }
  rewrite acc_insert. rewrite tok_ins, tok_put_lam, E.
  rewrite acc_put_lam. destruct (Z.eqb_spec to from); [congruence|].
  rewrite tok_foreign by (unfold owner_of in Ho; rewrite Ho; pose proof (eo_toksys _ Henv); congruence).
  split; [lia|]. split; [reflexivity|]. split; [reflexivity|].
  intros k Hk. unfold owner_of. rewrite acc_ins, acc_put_lam.
  destruct (Z.eqb_spec k to); [contradiction|]. destruct (Z.eqb_spec k from); [subst; reflexivity|reflexivity].
Qed.

Lemma tokens_conserved ts ms i L L' r :
  exec e ts ms i L = Ok (L', r) -> tokens_total e mint L' = tokens_total e mint L.
Proof.
  intros H. apply exec_inv in H as [H _].
  destruct i; cbn [process] in *; try (apply no_ret_ok in H as [H _]).
  - apply init_pool_inv in H as (pool & mt & vault & payer & auth & bump & w & L1 & L2 & _ & Hp & _ & _ & _ & _ & _ & _ & _ & _ & _ & Hc & Ha & ->).
    pose proof (create_account_inv _ _ _ _ _ _ _ _ Hc) as (_ & _ & _ & _ & Hvo & _).
    apply tok_create in Hc as (Hc & Hz & Hv & Ho). apply initialize_account_inv in Ha as (_ & _ & _ & ->).
    assert (pool <> vault) by (intros ->; pose proof (eo_sys _ Henv); congruence).
    unfold put_pool. rewrite tok_put by (rewrite owner_put, Ho by assumption; assumption).
    unfold put_data. rewrite tok_ins, Hz, Hv, Hc. unfold tokens_in. cbn. destruct (_ && _); lia.
  - apply fill_inv in H as (pool & mt & vault & auth & src & w & w' & _ & Hp & _ & Hv & Hs & _ & _ & _ & _ & _ & _ & _ & Ht).
    apply tok_transfer in Ht; [|unfold put_pool; rewrite owner_put; assumption ..]. rewrite Ht. apply tok_put. assumption.
  - apply init_mining_inv in H as (pool & mining & payer & bump & L1 & _ & _ & _ & _ & _ & Hc & ->).
    apply tok_create in Hc as (Hc & Hz & Hv & Ho). unfold put_mining. rewrite tok_put; [assumption|].
    unfold owner_of. rewrite Hv. reflexivity.
  - apply deposit_inv in H as (pool & mining & auth & dm & w & m & w' & m' & d' & _ & [] & _ & Hd & _ & ->).
    unfold put_mining, put_pool. rewrite tok_put_dlg, !tok_put by (rewrite ?owner_put; assumption). reflexivity.
  - apply withdraw_inv in H as (pool & mining & auth & dm & w & m & w' & m' & d' & _ & [] & _ & Hd & _ & ->).
    unfold put_mining, put_pool. rewrite tok_put_dlg, !tok_put by (rewrite ?owner_put; assumption). reflexivity.
  - destruct (process_claim e ts ms L) as [[L1 x]|] eqn:E; [|discriminate]. injection H as <- <-.
    apply claim_inv in E as (pool & mt & vault & mining & owner & auth & dest & w & m & m1 & t & _ & _ & _ & Hv & Hm & Hd & _ & _ & _ & _ & _ & _ & _ & _ & _ & _ & _ & _ & _ & Hc).
    cbv zeta in Hc. destruct Hc as [[_ ->]|[_ Ht]]; [apply tok_put; assumption|].
    apply tok_transfer in Ht; [|unfold put_mining; rewrite owner_put; assumption ..]. rewrite Ht. apply tok_put. assumption.
  - apply extend_inv in H as (pool & mining & auth & dm & w & m & w' & m' & d' & _ & [] & _ & Hd & _ & ->).
    unfold put_mining, put_pool. rewrite tok_put_dlg, !tok_put by (rewrite ?owner_put; assumption). reflexivity.
  - apply distribute_inv in H as (pool & auth & w & r0 & w' & _ & Hp & _ & _ & _ & _ & _ & ->). apply tok_put. assumption.
  - apply close_inv in H as (mining & owner & target & auth & pool & w & m & m1 & _ & Hm & Ht & _ & _ & _ & _ & _ & _ & _ & _ & _ & _ & _ & _ & ->).
    rewrite tok_ins, tok_put_lam.
    assert (mining <> target) by (intros ->; pose proof (eo_sys _ Henv); congruence).
    rewrite acc_put_lam. destruct (Z.eqb_spec mining target); [contradiction|].
    rewrite tok_foreign by (unfold owner_of in Hm; rewrite Hm; pose proof (eo_tok _ Henv); congruence).
    cbn. lia.
  - apply change_inv in H as (pool & mining & auth & owner & od & nd & w & m & w' & m' & od' & nd' & _ & [] & _ & _ & Ho & Hn & _ & _ & _ & ->).
    unfold put_mining, put_pool. rewrite !tok_put_dlg, !tok_put by (rewrite ?owner_put_dlg, ?owner_put; assumption). reflexivity.
  - apply slash_inv in H as (auth & pool & mining & w & m & w' & m' & _ & [] & _ & ->).
    unfold put_mining, put_pool. rewrite !tok_put by (rewrite ?owner_put; assumption). reflexivity.
  - apply decrease_inv in H as (auth & pool & mining & w & m & m' & _ & [] & _ & ->). apply tok_put. assumption.
Qed.
End tok.
