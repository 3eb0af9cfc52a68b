(** C72: the account loaders are the unchecked loader and an assertion helper; open minings
    are rent exempt. *)
From stdpp Require Import gmap.
From Verif Require Import Base OMap State Spec Ledger Program Clients LedgerLemmas LedgerSpec ResLemmas
  CodecLemmas History HistoryLemmas HistoryThms ReachThms Scenario Attacks LedgerView LedgerOrderly EffectThms EffectExamples Rent Helpers.

Theorem C72_loaders : forall L ms it k,
  next_with_owner L k it = (let? (a, r) := next_unchecked it in let? _ := assert_owned_by L a k in Ok (a, r)) /\
  next_with_key k it = (let? (a, r) := next_unchecked it in let? _ := assert_account_key a k in Ok (a, r)) /\
  next_signer ms it = (let? (a, r) := next_unchecked it in let? _ := assert_signer ms a in Ok (a, r)) /\
  (forall a, assert_account_key a k = assert_pubkey_eq a k) /\
  (has_more it = true <-> exists a r, next_unchecked it = Ok (a, r)) /\
  (has_more it = false <-> next_unchecked it = Err ENotEnoughKeys).
Proof.
  intros L ms it k. destruct it as [|m r]; cbn.
  - do 3 (split; [reflexivity|]). split; [reflexivity|]. split; [|split; reflexivity].
    split; [discriminate|]. intros (a & r & H). discriminate.
  - unfold assert_owned_by, assert_account_key, assert_signer, ensure.
    split; [destruct (_ =? _); reflexivity|]. split; [destruct (_ =? _); reflexivity|].
    split; [destruct (is_signer _ _); reflexivity|]. split; [reflexivity|].
    split; [split; [intros _; eauto|reflexivity]|]. split; discriminate.
Qed.
Print Assumptions C72_loaders.

(** what each assertion says *)
Theorem C72_assertions : forall e L ms k o n,
  (assert_signer ms k = Ok tt <-> signed ms k) /\ (assert_signer ms k <> Ok tt -> assert_signer ms k = Err EMissingSignature) /\
  (assert_owned_by L k o = Ok tt <-> owner_of L k = o) /\ (owner_of L k <> o -> assert_owned_by L k o = Err InvalidAccountOwner) /\
  (assert_account_owner L k o = Ok tt <-> owner_of L k = o) /\ (owner_of L k <> o -> assert_account_owner L k o = Err EInvalidArgument) /\
  (assert_pubkey_eq k o = Ok tt <-> k = o) /\ (k <> o -> assert_pubkey_eq k o = Err EInvalidArgument) /\
  (assert_account_len L k n = Ok tt <-> data_len (data_of L k) = n) /\
  (assert_rent_exempt e L k = true <-> rent_min e (data_len (data_of L k)) <= lamports_of L k).
Proof.
  intros e L ms k o n.
  unfold assert_signer, assert_owned_by, assert_account_owner, assert_pubkey_eq, assert_account_len, assert_rent_exempt, ensure,
    owner_of, data_of, lamports_of.
  split.
  { unfold signed, is_signer. destruct (existsb _ ms) eqn:E.
    - split; [|reflexivity]. intros _. apply existsb_exists in E as (x & Hin & E). apply andb_true_iff in E as [E1 E2].
      exists x. split; [exact Hin|]. split; [apply Z.eqb_eq; exact E1|exact E2].
    - split; [discriminate|]. intros (x & Hin & E1 & E2). exfalso.
      assert (existsb (fun m => (mt_key m =? k) && mt_signer m) ms = true); [|congruence].
      apply existsb_exists. exists x. split; [exact Hin|]. rewrite E2, (proj2 (Z.eqb_eq _ _) E1). reflexivity. }
  split; [destruct (is_signer ms k); [congruence|reflexivity]|].
  assert (Q : forall a b (x : err), (if a =? b then Ok tt else Err x) = Ok tt <-> a = b)
    by (intros a b x; destruct (Z.eqb_spec a b); split; congruence).
  assert (Q' : forall a b (x : err), a <> b -> (if a =? b then Ok tt else Err x) = Err x)
    by (intros a b x; destruct (Z.eqb_spec a b); congruence).
  do 3 (split; [apply Q|]; split; [apply Q'|]). split; [apply Q|]. apply Z.leb_le.
Qed.
Print Assumptions C72_assertions.

(** an open mining passes the rent assertion in every reachable state; a closed one does not *)
Theorem C72_rent_exempt : forall e, env_ok e -> forall now L k m,
  reached e now L -> is_mining e L k m -> m_type (wm m) = TYPE_MINING -> assert_rent_exempt e L k = true.
Proof.
  intros e Henv now L k m HR Hm Ht. pose proof (rent_kept e Henv _ _ _ _ HR Hm Ht) as H. destruct Hm as [_ Hd].
  unfold assert_rent_exempt. unfold data_of in Hd. rewrite Hd. apply Z.leb_le. exact H.
Qed.
Print Assumptions C72_rent_exempt.

Example C72_example :
  reached env0 (at_noon 104) L2 /\
  assert_rent_exempt env0 L2 (mining_of ALICE POOL) = true /\ assert_rent_exempt env0 L2 (mining_of 99 POOL) = false /\
  (let it := [Meta POOL false true; Meta AUTH true false] in
   next_with_owner L2 2 it = Ok (POOL, [Meta AUTH true false]) /\ next_with_owner L2 4 it = Err InvalidAccountOwner /\
   next_signer it it = Err EMissingSignature /\ next_signer it [Meta AUTH false false] = Ok (AUTH, []) /\
   next_with_key AUTH it = Err EInvalidArgument /\ has_more it = true /\ has_more [] = false).
Proof. split; [apply plays_reached; vm_compute; reflexivity|]. vm_compute. auto 10. Qed.
