(** Claim C69: the program with the full token program, where token accounts may be frozen, have
    delegates, hold wrapped lamports, and an authority may be a multisig account. *)
From stdpp Require Import gmap.
From Verif Require Import Base OMap State Core Ledger Program LedgerLemmas LedgerSpec CodecLemmas History HistoryLemmas ReachThms Clients
  Scenario CoreRun Witness LedgerCoreThms LedgerView LedgerCore LedgerOrderly Contain Spl SplSpec SplThms.

(** a call that moves tokens is the call of Program.v on the ledger with the source in the authority's name *)
Theorem C69_call : forall e, env_ok e -> forall native ts ms i L X L' X' r s d a,
  full_exec e native ts ms i L X = Ok (L', X', r) -> moves_at ms i s d a -> 0 < moved i r ->
  (i = Claim -> s = d -> exists t, data_of L s = DToken t /\ t_owner t = a) ->
  exists L1 L2, in_name_of e L s a L1 /\ exec e ts ms i L1 = Ok (L2, r) /\
    agrees e L X s d a (moved i r) /\ settled L X s d (moved i r) L2 L' /\ allowance_used X s d a (moved i r) X'.
Proof. exact simulated. Qed.
Print Assumptions C69_call.

Theorem C69_call_back : forall e, env_ok e -> forall native ts ms i L X L1 L2 r s d a,
  moves_at ms i s d a -> 0 < moved i r -> in_name_of e L s a L1 -> exec e ts ms i L1 = Ok (L2, r) ->
  agrees e L X s d a (moved i r) ->
  (i = Claim -> s = d -> exists t, data_of L s = DToken t /\ t_owner t = a) ->
  exists L' X', full_exec e native ts ms i L X = Ok (L', X', r).
Proof. exact agreed. Qed.
Print Assumptions C69_call_back.

(** a call that moves none *)
Theorem C69_unmoved : forall e native ts ms i L X L' X' r,
  ix_in_range i -> moved i r <= 0 ->
  full_exec e native ts ms i L X = Ok (L', X', r) <->
  exec e ts ms i L = Ok (L', r) /\ X' = match i with InitializePool _ _ => opened native ms X | _ => X end.
Proof. exact unmoved. Qed.
Print Assumptions C69_unmoved.

(** a vault is opened without delegate, not frozen, and for wrapped SOL exactly if its mint is that of
    wrapped SOL; no other token account is touched *)
Theorem C69_opened : forall e native ts ms f d L X L' X' r mint vault,
  full_exec e native ts ms (InitializePool f d) L X = Ok (L', X', r) -> account_at ms 1 mint -> account_at ms 2 vault ->
  exec e ts ms (InitializePool f d) L = Ok (L', r) /\
  x_delegate (extra_at X' vault) = None /\ x_allowance (extra_at X' vault) = 0 /\ x_frozen (extra_at X' vault) = false /\
  (x_native (extra_at X' vault) = true <-> mint = native) /\
  forall k, k <> vault -> extra_at X' k = extra_at X k.
Proof. exact opened_vault. Qed.
Print Assumptions C69_opened.

(** with ordinary token accounts the answer is that of Program.v, errors included *)
Theorem C69_ordinary : forall e, env_ok e -> forall native ts ms i L X s d a,
  moves_at ms i s d a -> plain_token X s a -> x_frozen (extra_at X d) = false ->
  ~ (owner_of L a = spl_token_id e /\ data_len (data_of L a) = 355) ->
  full_exec e native ts ms i L X = let? (L', r) := exec e ts ms i L in Ok (L', X, r).
Proof. exact ordinary_tokens. Qed.
Print Assumptions C69_ordinary.

(** what a move needs *)
Theorem C69_consent : forall e, env_ok e -> forall native ts ms i L X L' X' r s d a,
  full_exec e native ts ms i L X = Ok (L', X', r) -> moves_at ms i s d a -> 0 < moved i r ->
  agrees e L X s d a (moved i r) /\ signed ms a /\ writable ms s /\ writable ms d /\
  exists t u, is_token e L s t /\ is_token e L d u /\ t_mint t = t_mint u /\ moved i r <= t_amount t.
Proof. exact consent. Qed.
Print Assumptions C69_consent.

(** what it does to the two accounts *)
Theorem C69_effect : forall e, env_ok e -> forall native ts ms i L X L' X' r s d a,
  full_exec e native ts ms i L X = Ok (L', X', r) -> moves_at ms i s d a -> 0 < moved i r ->
  exists t u, is_token e L s t /\ is_token e L d u /\ moved i r <= t_amount t /\
    (s <> d ->
      acc L' s = Account (a_lamports (acc L s) - (if x_native (extra_at X s) then moved i r else 0)) (spl_token_id e)
        (DToken (Token (t_mint t) (t_owner t) (t_amount t - moved i r))) /\
      acc L' d = Account (a_lamports (acc L d) + (if x_native (extra_at X s) then moved i r else 0)) (spl_token_id e)
        (DToken (Token (t_mint u) (t_owner u) (t_amount u + moved i r))) /\
      t_amount u + moved i r < 18446744073709551616) /\
    (s = d -> acc L' s = acc L s) /\
    allowance_used X s d a (moved i r) X'.
Proof. exact full_effect. Qed.
Print Assumptions C69_effect.

(** histories: the calls are those of a history of History.v *)
Theorem C69_histories : forall e, env_ok e -> forall native L0 X0 evs now L X,
  genesis e L0 -> full_run e native 0 L0 X0 evs now L X ->
  exists evs', calls_in evs' = calls_in evs /\ History.run e 0 L0 evs' now L.
Proof. intros e He native L0 X0 evs now L X G. apply (full_followed e He). eapply genesis_bytes. exact G. Qed.
Print Assumptions C69_histories.

Theorem C69_reached : forall e, env_ok e -> forall native L0 X0 evs now L X,
  genesis e L0 -> full_run e native 0 L0 X0 evs now L X -> reached e now L.
Proof.
  intros e He native L0 X0 evs now L X G R. destruct (C69_histories e He native L0 X0 evs now L X G R) as (evs' & _ & R').
  exists L0, evs'. split; assumption.
Qed.
Print Assumptions C69_reached.

Theorem C69_orderly : forall e, env_ok e -> env_inj e -> 0 < rent_min e MINING_LEN -> forall P, P <> 0 ->
  forall native now L X, full_orderly e native P disciplined now L X -> orderly e P disciplined now L.
Proof.
  intros e He Hi Hr P HP. exact (full_orderly_followed e He Hi Hr P HP disciplined disciplined_donate disciplined_init).
Qed.
Print Assumptions C69_orderly.

(** so claims still succeed, if only the token program agrees *)
Theorem C69_claims_pay : forall e, env_ok e -> env_inj e -> 0 < rent_min e MINING_LEN -> forall P, P <> 0 ->
  forall native now ts L X V w mint k m T,
  full_orderly e native P disciplined now L X -> pool_vault e L P V w -> now <= ts -> is_u64 ts ->
  mint = p_mint (wp w) -> owner_of L mint = spl_token_id e -> p_deposit_auth (wp w) <> system_id ->
  mining_in e L P k m -> m_owner (wm m) <> system_id -> payable e L w V m T ->
  (forall n, 0 < n <= balance L V -> agrees e L X V T (p_deposit_auth (wp w)) n) ->
  exists L' X' L1 n,
    full_exec e native ts (fst (b_claim e P mint V k (m_owner (wm m)) (p_deposit_auth (wp w)) T)) Claim L X = Ok (L', X', Some n) /\
    exec e ts (fst (b_claim e P mint V k (m_owner (wm m)) (p_deposit_auth (wp w)) T)) Claim L = Ok (L1, Some n).
Proof.
  intros e He Hi Hr P HP.
  exact (full_claim_pays e He Hi Hr P HP disciplined disciplined_donate disciplined_init disciplined_claim (fun _ _ _ H => H)).
Qed.
Print Assumptions C69_claims_pay.

Definition bob_claims : call := (at_noon 105, b_claim env0 POOL MINT (vault_of POOL) (mining_of BOB POOL) BOB AUTH BOB_T).
Definition runs (L : ledger) (c : call) : bool :=
  match exec env0 (fst c) (fst (snd c)) (snd (snd c)) L with Ok _ => true | Err _ => false end.

(** ** A pool of wrapped lamports, filled by a delegate *)

(** a call, or a change from outside: one account not of this program and not derived, and the
    extra fields *)
Inductive event_of := Call (c : call) | Outside (ts : Z) (k : pubkey) (a : account) (X : extras).
Definition bytes_b (a : account) : bool :=
  u64_b (a_lamports a) && match a_data a with DToken t => u64_b (t_amount t) | _ => true end.
Fixpoint full_play (now : Z) (L : ledger) (X : extras) (l : list event_of) : option (Z * ledger * extras) :=
  match l with
  | [] => Some (now, L, X)
  | Call (ts, (ms, i)) :: r =>
      if (now <=? ts) && u64_b ts && range_b i && orderly_ix_b POOL disciplined_b now ts ms i L &&
         match i with FillVault _ _ => negb (key_at ms 4 mod 4 =? 3) | Claim => negb (key_at ms 2 =? key_at ms 6) | _ => true end
      then match full_exec env0 MINT ts ms i L X with Ok (L1, X1, _) => full_play ts L1 X1 r | Err _ => None end
      else None
  | Outside ts k a X1 :: r =>
      if (now <=? ts) && u64_b ts && (k mod 2 =? 0) && negb (owner_of L k =? 2) && negb (a_owner a =? 2) && bytes_b a
      then full_play ts (<[k := a]> L) X1 r else None
  end.
Definition event_of_event (x : event_of) : event :=
  match x with Call c => EvIx (fst c) (fst (snd c)) (snd (snd c)) | Outside ts _ _ _ => EvExt ts end.
Lemma derived_odd k : derived env0 k -> k mod 2 <> 0.
Proof.
  intros [(o & p & b & E)|(p & m & b & E)]; cbn in E; injection E as <-.
  - replace (4 * code o p b + 1) with (1 + (2 * code o p b) * 2) by lia. rewrite Z.mod_add by lia. discriminate.
  - replace (4 * code p m b + 3) with (1 + (2 * code p m b + 1) * 2) by lia. rewrite Z.mod_add by lia. discriminate.
Qed.
Lemma outside_ok L k a : Contain.bytes L -> k mod 2 = 0 -> owner_of L k <> 2 -> a_owner a <> 2 -> bytes_b a = true ->
  external env0 L (<[k := a]> L) /\ orderly_ext env0 POOL L (<[k := a]> L) /\ Contain.bytes (<[k := a]> L).
Proof.
  intros HB Hk Ho Ha Hb. assert (Ba : account_bytes_ok a).
  { unfold bytes_b, u64_b in Hb. apply andb_true_iff in Hb as [H1 H2]. split; [unfold is_u64; lia|]. destruct (a_data a); try exact I. unfold is_u64. lia. }
  assert (Bk : Contain.bytes (<[k := a]> L)) by (apply bytes_ins; assumption).
  split; [|split; [|exact Bk]].
  - intros q. destruct (Z.eq_dec k q) as [->|N]; [|rewrite acc_insert_ne by exact N; apply Contain.external_refl, HB].
    rewrite acc_insert. apply external_other; [exact Ba|exact Ho|exact Ha].
  - constructor.
    + intros q D. left. unfold owner_of. rewrite acc_insert_ne; [reflexivity|]. intros ->. exact (derived_odd _ D Hk).
    + intros m b V t Hc Ht. exists t. split; [|split; [reflexivity|split; [reflexivity|lia]]]. unfold is_token, owner_of, data_of in *.
      rewrite acc_insert_ne; [exact Ht|]. intros ->. apply (derived_odd V); [right; eauto|exact Hk].
Qed.
Lemma full_play_ok l : forall now L X now' L' X', Contain.bytes L -> full_play now L X l = Some (now', L', X') ->
  full_run env0 MINT now L X (map event_of_event l) now' L' X' /\ full_orderly_run env0 MINT POOL disciplined now L X now' L' X'.
Proof.
  induction l as [|[[ts [ms i]]|ts k a X1] l IH]; intros now L X now' L' X' HB H; cbn [full_play map event_of_event fst snd] in *.
  - injection H as <- <- <-. split; constructor.
  - destruct (_ && _) eqn:E in H; [|discriminate]. apply andb_true_iff in E as [E E5]. apply andb_true_iff in E as [E E4].
    apply andb_true_iff in E as [E E3]. apply andb_true_iff in E as [E1 E2]. unfold u64_b in E2.
    destruct (full_exec env0 MINT ts ms i L X) as [[[L1 X1] r]|] eqn:Ex; [|discriminate].
    assert (Hi : ix_in_range i) by (apply range_b_ok; exact E3).
    assert (Hu : is_u64 ts) by (unfold is_u64; lia).
    assert (Hs : forall s a t, i = Claim -> moves_at ms i s s a -> data_of L s = DToken t -> t_owner t = a).
    { intros s a t -> (x & y & z & T & A & B & _) _. injection T as <- <- <-.
      rewrite (key_at_ok _ _ _ A), (key_at_ok _ _ _ B), Z.eqb_refl in E5. discriminate E5. }
    destruct (bridge env0 env0_ok _ _ _ _ _ _ _ _ _ HB Hi Ex Hs) as (_ & _ & _ & _ & _ & B' & _).
    destruct (IH _ _ _ _ _ _ B' H) as [R1 R2]. split.
    + eapply full_ix; [lia|exact Hu|exact Hi|exact Ex|exact Hs|exact R1].
    + eapply fo_ix; [|exact Hu|exact Hi|exact Ex| | |exact Hs|exact R2]; [lia|eapply orderly_ix_ok; [exact disciplined_b_ok|exact E4]|].
      intros n x s d a m b -> (x0 & y0 & z0 & T & A & _) Hc. injection T as <- <- <-. rewrite (key_at_ok _ _ _ A) in E5.
      cbn in Hc. injection Hc as <-. exfalso. replace (_ mod 4) with 3 in E5; [discriminate|].
      rewrite Z.add_comm, Z.mul_comm, Z.mod_add by lia. reflexivity.
  - destruct (_ && _) eqn:E in H; [|discriminate]. apply andb_true_iff in E as [E E6]. apply andb_true_iff in E as [E E5].
    apply andb_true_iff in E as [E E4]. apply andb_true_iff in E as [E E3]. apply andb_true_iff in E as [E1 E2]. unfold u64_b in E2.
    assert (Hu : is_u64 ts) by (unfold is_u64; lia).
    destruct (outside_ok L k a HB) as (H1 & H2 & B'); [lia|lia|lia|exact E6|].
    destruct (IH _ _ _ _ _ _ B' H) as [R1 R2]. split.
    + eapply full_ext; [lia|exact Hu|exact H1|exact R1].
    + eapply fo_ext; [|exact Hu|exact H1|exact H2|exact R2]. lia.
Qed.

(** CAROL's wrapped lamports, of which FILLER may move 60000 *)
Definition wrapped_source : account := Account 1002000 4 (DToken (Token MINT CAROL 1000000)).
Definition X0 : extras :=
  <[SOURCE := Extra (Some FILLER) 60000 false true]> (<[ALICE_T := Extra None 0 false true]> (<[BOB_T := Extra None 0 false true]> ∅)).
Definition wrapped_history : list event_of :=
  Outside (at_noon 99) SOURCE wrapped_source X0 :: map Call (setup ++ later).
Definition after_full (l : list event_of) : option (Z * ledger * extras) := full_play 0 L0 ∅ l.
Definition seen (l : list event_of) (ks : list pubkey) : option (list (Z * Z * option pubkey * Z)) :=
  match after_full l with
  | Some (_, L, X) => Some (map (fun k => (a_lamports (acc L k), balance L k, x_delegate (extra_at X k), x_allowance (extra_at X k))) ks)
  | None => None
  end.
Definition pays (l : list event_of) (c : call) : option Z :=
  match after_full l with
  | Some (_, L, X) => match full_exec env0 MINT (fst c) (fst (snd c)) (snd (snd c)) L X with Ok (_, _, Some n) => Some n | _ => None end
  | None => None
  end.
(** the delegate's allowance is used, lamports go with the tokens, ALICE was paid 6009; all of it
    is a history of the theorems *)
Example C69_example :
  seen wrapped_history [SOURCE; vault_of POOL; ALICE_T] =
    Some [(952000, 950000, Some FILLER, 10000); (46921, 43991, None, 0); (8009, 6009, None, 0)] /\
  (exists now L X, after_full wrapped_history = Some (now, L, X) /\
     full_run env0 MINT 0 L0 ∅ (map event_of_event wrapped_history) now L X /\
     full_orderly env0 MINT POOL disciplined now L X /\
     reached env0 now L /\ orderly env0 POOL disciplined now L) /\
  pays wrapped_history bob_claims = Some 5599.
Proof.
  split; [vm_compute; reflexivity|]. split; [|vm_compute; reflexivity].
  destruct (after_full wrapped_history) as [[[now L] X]|] eqn:E; [|vm_compute in E; discriminate E].
  exists now, L, X. split; [reflexivity|].
  destruct (full_play_ok _ _ _ _ _ _ _ (genesis_bytes env0 L0 genesis0) E) as [R1 R2].
  split; [exact R1|].
  assert (FO : full_orderly env0 MINT POOL disciplined now L X).
  { exists L0, ∅. split; [exact genesis0|]. split; [exact genesis0_derived|exact R2]. }
  split; [exact FO|]. split; [eapply C69_reached; [exact env0_ok|exact genesis0|exact R1]|].
  eapply C69_orderly; [exact env0_ok|exact env0_inj|reflexivity|discriminate|exact FO].
Qed.

(** without the allowance the fill is refused; so it is if FILLER is only known to the token program
    as somebody else's delegate *)
Definition fill_again (n : Z) : call := (at_noon 105, b_fill_vault env0 POOL MINT (vault_of POOL) FILLER SOURCE n (at_noon 111)).
Definition works (l : list event_of) (c : call) : bool :=
  match after_full (l ++ [Call c]) with Some _ => true | None => false end.
Definition outside_X (f : extras -> extras) (l : list event_of) : list event_of :=
  match after_full l with
  | Some (now, L, X) => l ++ [Outside now SOURCE (acc L SOURCE) (f X)]
  | None => []
  end.
Definition freeze (k : pubkey) (X : extras) : extras :=
  let x := extra_at X k in <[k := Extra (x_delegate x) (x_allowance x) true (x_native x)]> X.
Definition thaw (k : pubkey) (X : extras) : extras :=
  let x := extra_at X k in <[k := Extra (x_delegate x) (x_allowance x) false (x_native x)]> X.
Definition alice_claims : call := (at_noon 105, b_claim env0 POOL MINT (vault_of POOL) (mining_of ALICE POOL) ALICE AUTH ALICE_T).
Example C69_example_allowance :
  works wrapped_history (fill_again 10000) = true /\ works wrapped_history (fill_again 10001) = false /\
  seen (wrapped_history ++ [Call (fill_again 9999)]) [SOURCE] = Some [(942001, 940001, Some FILLER, 1)] /\
  seen (wrapped_history ++ [Call (fill_again 10000)]) [SOURCE] = Some [(942000, 940000, None, 0)] /\
  works (wrapped_history ++ [Call (fill_again 10000)]) (fill_again 1) = false /\
  match after_full wrapped_history with
  | Some (_, L, _) => runs L (fill_again 1) = false
  | None => False
  end.
Proof. vm_compute. auto 10. Qed.

(** a frozen vault keeps BOB from being paid until it is thawed; a claim of nothing works
    meanwhile, and so does everything that moves no tokens *)
Example C69_example_frozen :
  let frozen := outside_X (freeze (vault_of POOL)) wrapped_history in
  works wrapped_history bob_claims = true /\ works frozen bob_claims = false /\
  works frozen (at_noon 105, b_distribute POOL DISTR) = true /\
  works (wrapped_history ++ [Call bob_claims]) bob_claims = true /\
  works (outside_X (freeze (vault_of POOL)) (wrapped_history ++ [Call bob_claims])) bob_claims = true /\
  pays (outside_X (thaw (vault_of POOL)) frozen) bob_claims = Some 5599 /\
  works (outside_X (freeze BOB_T) wrapped_history) bob_claims = false /\
  works (outside_X (freeze BOB_T) wrapped_history) alice_claims = true.
Proof. vm_compute. auto 10. Qed.

(** an authority that is a multisig account of the token program *)
Definition multisig_auth : list event_of :=
  wrapped_history ++ [Outside (at_noon 104) AUTH (Account 5000 4 (DOther 355)) X0].
Example C69_example_multisig :
  works multisig_auth bob_claims = false /\
  works multisig_auth (at_noon 105, b_withdraw POOL (mining_of BOB POOL) AUTH (mining_of ALICE POOL) 1 BOB ALICE) = true.
Proof. vm_compute. auto. Qed.

(** ordinary accounts *)
Example C69_example_ordinary :
  plain_token ∅ (vault_of POOL) AUTH /\ moves_at (fst (snd bob_claims)) Claim (vault_of POOL) BOB_T AUTH /\
  runs L2 bob_claims = true /\ full_exec env0 POOL2 (at_noon 105) (fst (snd bob_claims)) Claim L2 ∅ =
    let? (L', r) := exec env0 (at_noon 105) (fst (snd bob_claims)) Claim L2 in Ok (L', ∅, r).
Proof.
  assert (H1 : plain_token ∅ (vault_of POOL) AUTH) by (split; [reflexivity|split; [discriminate|reflexivity]]).
  assert (H2 : moves_at (fst (snd bob_claims)) Claim (vault_of POOL) BOB_T AUTH) by (exists 2%nat, 6%nat, 5%nat; repeat split; reflexivity).
  split; [exact H1|]. split; [exact H2|]. split; [vm_compute; reflexivity|].
  apply (C69_ordinary env0 env0_ok POOL2 (at_noon 105) _ Claim L2 ∅ (vault_of POOL) BOB_T AUTH H2 H1); [reflexivity|].
  intros [H _]. vm_compute in H. discriminate H.
Qed.

(** Why a claim into the vault itself is left out: BOB owns the vault and the deposit authority is only
    its delegate. The claim works, moves nothing, and BOB's reward is gone; in nobody's name
    does the call of Program.v do that. *)
Definition bobs_vault : account :=
  match acc L2 (vault_of POOL) with Account l o (DToken t) => Account l o (DToken (Token (t_mint t) BOB (t_amount t))) | a => a end.
Definition L_bob : ledger := <[vault_of POOL := bobs_vault]> L2.
Definition into_itself : call := (at_noon 105, b_claim env0 POOL MINT (vault_of POOL) (mining_of BOB POOL) BOB AUTH (vault_of POOL)).
Example C69_example_itself :
  match full_exec env0 POOL2 (fst into_itself) (fst (snd into_itself)) Claim L_bob (<[vault_of POOL := Extra (Some AUTH) 1000000 false false]> ∅) with
  | Ok (L', _, r) => r = Some 5599 /\ acc L' (vault_of POOL) = acc L_bob (vault_of POOL)
  | Err _ => False
  end /\
  runs L_bob into_itself = false /\ runs (rename L_bob (vault_of POOL) AUTH) into_itself = false.
Proof. vm_compute. auto. Qed.

(** C69_claims_pay applied to BOB *)
Definition LW : ledger := match after_full wrapped_history with Some (_, L, _) => L | None => ∅ end.
Definition XW : extras := match after_full wrapped_history with Some (_, _, X) => X | None => ∅ end.
Definition bobs : wmining := match data_of LW (mining_of BOB POOL) with DMining m => m | _ => zero_wmining end.
Example C69_example_pays :
  full_orderly env0 MINT POOL disciplined (at_noon 104) LW XW /\
  (forall n, 0 < n <= balance LW (vault_of POOL) -> agrees env0 LW XW (vault_of POOL) BOB_T AUTH n) /\
  exists L' X' L1 n,
    full_exec env0 MINT (at_noon 105) (fst (snd bob_claims)) Claim LW XW = Ok (L', X', Some n) /\
    exec env0 (at_noon 105) (fst (snd bob_claims)) Claim LW = Ok (L1, Some n).
Proof.
  assert (E : after_full wrapped_history = Some (at_noon 104, LW, XW)).
  { unfold LW, XW. destruct (after_full wrapped_history) as [[[now L] X]|] eqn:E; [|vm_compute in E; discriminate E].
    do 2 f_equal. assert (Q : option_map (fun x => fst (fst x)) (after_full wrapped_history) = Some (at_noon 104)) by (vm_compute; reflexivity).
    rewrite E in Q. cbn in Q. injection Q as ->. reflexivity. }
  assert (FO : full_orderly env0 MINT POOL disciplined (at_noon 104) LW XW).
  { exists L0, ∅. split; [exact genesis0|]. split; [exact genesis0_derived|].
    exact (proj2 (full_play_ok _ _ _ _ _ _ _ (genesis_bytes env0 L0 genesis0) E)). }
  clear E.
  assert (Hag : forall n, 0 < n <= balance LW (vault_of POOL) -> agrees env0 LW XW (vault_of POOL) BOB_T AUTH n).
  { assert (B : balance LW (vault_of POOL) = 43991) by (vm_compute; reflexivity). rewrite B. intros n Hn. constructor.
    - vm_compute. reflexivity.
    - vm_compute. reflexivity.
    - intros H. vm_compute in H. discriminate H.
    - intros _. eexists. split; vm_compute; reflexivity.
    - intros [H _]. vm_compute in H. discriminate H.
    - intros _ _. assert (A : a_lamports (acc LW (vault_of POOL)) = 46921) by (vm_compute; reflexivity).
      assert (A' : a_lamports (acc LW BOB_T) = 2000) by (vm_compute; reflexivity). rewrite A, A'. lia. }
  split; [exact FO|]. split; [exact Hag|].
  assert (HV : pool_vault env0 LW POOL (vault_of POOL) (pool_of LW POOL)).
  { split; [split; vm_compute; reflexivity|]. split; vm_compute; reflexivity. }
  assert (Ha : p_deposit_auth (wp (pool_of LW POOL)) = AUTH) by (vm_compute; reflexivity).
  assert (Ho : m_owner (wm bobs) = BOB) by (vm_compute; reflexivity).
  pose proof (C69_claims_pay env0 env0_ok env0_inj ltac:(reflexivity) POOL ltac:(discriminate) MINT (at_noon 104) (at_noon 105) LW XW
    (vault_of POOL) (pool_of LW POOL) MINT (mining_of BOB POOL) bobs BOB_T FO HV) as Q. rewrite Ha, Ho in Q.
  apply Q; clear Q.
  - unfold at_noon. lia.
  - unfold at_noon, is_u64, U64. lia.
  - vm_compute. reflexivity.
  - vm_compute. reflexivity.
  - discriminate.
  - split; [split; vm_compute; reflexivity|vm_compute; reflexivity].
  - discriminate.
  - eexists. split; [split; vm_compute; reflexivity|]. split; [vm_compute; reflexivity|]. split; [vm_compute; reflexivity|].
    split; [discriminate|]. vm_compute. reflexivity.
  - exact Hag.
Qed.
