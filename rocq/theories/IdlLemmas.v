(** Proofs about the documented tables and the builders. *)
From Verif Require Import Base OMap State Ledger Program LedgerLemmas LedgerSpec History Codec
  Clients ClientSpec ClientLemmas Idl IdlSpec.

Lemma rust_documented who rest i : rust_accounts who rest i = documented_metas who i ++ rest.
Proof. destruct i; reflexivity. Qed.

Lemma crate_asks e who i : snd (crate_request e who i) = i.
Proof. destruct i; reflexivity. Qed.

Lemma crate_documented e who i :
  standard e who -> table_wrong i = false ->
  fst (crate_request e who i) = documented_metas who i.
Proof.
  intros (R & T & S) W.
  destruct i; try discriminate W; cbn; unfold mw, mr; rewrite <- ?R, <- ?T, <- ?S; reflexivity.
Qed.

Lemma crate_roles e who i :
  standard e who -> map mt_key (fst (crate_request e who i)) = map who (wanted_roles i).
Proof. intros (R & T & S). destruct i; cbn; rewrite <- ?R, <- ?T, <- ?S; reflexivity. Qed.

Lemma crate_positions e who i n m :
  nth_error (fst (crate_request e who i)) n = Some m ->
  (mt_signer m = true <-> In n (must_sign i)) /\
  (mt_writable m = true <-> In n (may_change i ++ spare_writable i)).
Proof.
  intros H.
  destruct i; cbn in H |- *;
    repeat (destruct n as [|n]; [injection H as <-; cbn; split; split; intros X; try discriminate X;
      try reflexivity; try (intuition discriminate); tauto|]);
    destruct n; discriminate H.
Qed.

Lemma crate_built e who i : built e (fst (crate_request e who i)) i.
Proof. destruct i; constructor. Qed.

Lemma fields_documented i : rust_fields i = map d_role (documented i).
Proof. destruct i; reflexivity. Qed.

Lemma rust_builder_some e set rest i :
  (forall d, In d (documented i) ->
     set (d_role d) <> None \/ In (d_role d) [RRent; RTokenProgram; RSystemProgram]) ->
  rust_builder e set rest i =
    Some (documented_metas
            (fun r => match set r with
                      | Some k => k
                      | None => match r with
                                | RRent => rent_id e
                                | RTokenProgram => spl_token_id e
                                | _ => system_id
                                end
                      end) i ++ rest).
Proof.
  intros H. unfold rust_builder.
  rewrite (proj2 (forallb_forall _ _)).
  - f_equal. rewrite rust_documented. f_equal.
    unfold documented_metas. apply map_ext_in. intros d Hd. f_equal.
    unfold rust_field. destruct (set (d_role d)) eqn:E; [reflexivity|].
    destruct (H d Hd) as [X|X]; [congruence|].
    destruct X as [X|[X|[X|[]]]]; rewrite <- X; reflexivity.
  - intros r Hr. rewrite fields_documented in Hr. apply in_map_iff in Hr as (d & <- & Hd).
    unfold rust_field. destruct (set (d_role d)) eqn:E; [reflexivity|].
    destruct (H d Hd) as [X|X]; [congruence|].
    destruct X as [X|[X|[X|[]]]]; rewrite <- X; reflexivity.
Qed.

Lemma rust_builder_none e set rest i d :
  In d (documented i) -> set (d_role d) = None ->
  ~ In (d_role d) [RRent; RTokenProgram; RSystemProgram] ->
  rust_builder e set rest i = None.
Proof.
  intros Hd E N. unfold rust_builder.
  destruct (forallb _ _) eqn:F; [|reflexivity]. exfalso.
  rewrite forallb_forall in F. specialize (F (d_role d)).
  rewrite fields_documented in F. specialize (F (in_map _ _ _ Hd)).
  unfold rust_field in F. rewrite E in F.
  destruct (d_role d); cbn in F, N; try discriminate F; tauto.
Qed.

Lemma js_documented_list i :
  map fst (js_resolved i) = map d_role (documented i) /\
  map snd (js_resolved i) = map d_writable (documented i).
Proof. destruct i; split; reflexivity. Qed.

Lemma js_resolved_documented i :
  js_resolved i = map (fun d => (d_role d, d_writable d)) (documented i).
Proof. destruct i; reflexivity. Qed.

Lemma payer_signs i d : In d (documented i) -> d_role d = RPayer -> d_signer d = true.
Proof.
  intros H E. destruct i; cbn in H; intuition (subst d; cbn in *; congruence).
Qed.
Lemma program_does_not_sign i d :
  In d (documented i) -> In (d_role d) [RRent; RTokenProgram; RSystemProgram] -> d_signer d = false.
Proof.
  intros H E. destruct i; cbn in H; intuition (subst d; cbn in *; intuition congruence).
Qed.

Lemma js_typed e payer input i :
  typed input i ->
  js_accounts e payer input i = documented_metas (address e payer input) i.
Proof.
  intros T. unfold js_accounts, documented_metas. rewrite js_resolved_documented, map_map.
  apply map_ext_in. intros d Hd. specialize (T d Hd). cbn [fst snd].
  unfold js_value, js_meta, address. destruct (input (d_role d)) eqn:E.
  - cbn. rewrite T. reflexivity.
  - cbn. rewrite T. reflexivity.
  - cbn [In] in T. destruct T as [T|[T|[T|[T|[]]]]].
    + symmetry in T. rewrite T. cbn. rewrite (payer_signs i d Hd T). reflexivity.
    + pose proof (program_does_not_sign i d Hd ltac:(rewrite <- T; cbn; tauto)) as S.
      rewrite <- T. cbn. rewrite S. reflexivity.
    + pose proof (program_does_not_sign i d Hd ltac:(rewrite <- T; cbn; tauto)) as S.
      rewrite <- T. cbn. rewrite S. reflexivity.
    + pose proof (program_does_not_sign i d Hd ltac:(rewrite <- T; cbn; tauto)) as S.
      rewrite <- T. cbn. rewrite S. reflexivity.
Qed.

Lemma js_left_out e payer input i n d :
  nth_error (documented i) n = Some d -> input (d_role d) = JNull ->
  ~ In (d_role d) [RPayer; RRent; RTokenProgram; RSystemProgram] ->
  nth_error (js_accounts e payer input i) n = Some (Meta (program_id e) false false).
Proof.
  intros Hd E N. unfold js_accounts. rewrite js_resolved_documented, map_map.
  rewrite nth_error_map, Hd. cbn. unfold js_value. rewrite E.
  destruct (d_role d); cbn in N |- *; try reflexivity; tauto.
Qed.

(** documented flags against needed ones *)
Lemma documented_needs i n d :
  table_wrong i = false -> nth_error (documented i) n = Some d ->
  (d_signer d = true <-> In n (must_sign i)) /\
  (d_writable d = true <-> In n (may_change i ++ spare_writable i)).
Proof.
  intros W H.
  destruct i; try discriminate W; cbn in H |- *;
    repeat (destruct n as [|n]; [injection H as <-; cbn; split; split; intros X; try discriminate X;
      try reflexivity; try (intuition discriminate); tauto|]);
    destruct n; discriminate H.
Qed.
Lemma documented_arity i : table_wrong i = false -> length (documented i) = arity i.
Proof. destruct i; intros H; try discriminate H; reflexivity. Qed.
Lemma needed_in_range i n : In n (must_sign i ++ may_change i) -> (n < arity i)%nat.
Proof. destruct i; cbn; intros H; intuition lia. Qed.

Lemma documented_suffices who rest i :
  table_wrong i = false -> flags_suffice i (documented_metas who i ++ rest).
Proof.
  intros W.
  assert (G : forall n k, In n (must_sign i ++ may_change i) ->
              account_at (documented_metas who i ++ rest) n k ->
              exists d, nth_error (documented i) n = Some d /\ k = who (d_role d)).
  { intros n k Hn A. pose proof (needed_in_range i n Hn) as Hl.
    rewrite <- (documented_arity i W) in Hl.
    destruct (nth_error (documented i) n) as [d|] eqn:E; [|apply nth_error_None in E; lia].
    exists d. split; [reflexivity|].
    unfold account_at in A. rewrite nth_error_map in A.
    rewrite nth_error_app1 in A by (unfold documented_metas; rewrite map_length; exact Hl).
    unfold documented_metas in A. rewrite nth_error_map, E in A. cbn in A. congruence. }
  assert (M : forall n d, nth_error (documented i) n = Some d ->
              In (Meta (who (d_role d)) (d_signer d) (d_writable d)) (documented_metas who i ++ rest)).
  { intros n d E. apply in_or_app. left. unfold documented_metas.
    apply (in_map (fun d => Meta (who (d_role d)) (d_signer d) (d_writable d))).
    eapply nth_error_In, E. }
  split; intros n k Hn A.
  - destruct (G n k ltac:(apply in_or_app; auto) A) as (d & E & ->).
    destruct (documented_needs i n d W E) as [S _].
    exists (Meta (who (d_role d)) (d_signer d) (d_writable d)).
    repeat split; [apply (M n d E)|cbn; tauto].
  - destruct (G n k ltac:(apply in_or_app; auto) A) as (d & E & ->).
    destruct (documented_needs i n d W E) as [_ S].
    exists (Meta (who (d_role d)) (d_signer d) (d_writable d)).
    repeat split; [apply (M n d E)|cbn; apply S, in_or_app; auto].
Qed.

Lemma documented_complete e ts who rest ms i L x :
  table_wrong i = false -> same_accounts i ms (documented_metas who i ++ rest) ->
  exec e ts ms i L = Ok x -> exec e ts (documented_metas who i ++ rest) i L = Ok x.
Proof.
  intros W A. apply exec_flags; [exact A|]. apply documented_suffices, W.
Qed.
