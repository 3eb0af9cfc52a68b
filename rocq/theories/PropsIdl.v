(** C51: the documented account tables, and the requests built from them. *)
From stdpp Require Import gmap.
From Verif Require Import Base OMap State Ledger Program LedgerLemmas LedgerSpec History Codec Clients
  ClientSpec ClientLemmas Idl IdlSpec IdlLemmas Scenario ReachThms Attacks.

(** ** C51 *)
Theorem C51_crate_request : forall e who i,
  snd (crate_request e who i) = i /\
  (standard e who -> table_wrong i = false ->
   fst (crate_request e who i) = documented_metas who i).
Proof. intros e who i. split; [apply crate_asks|apply crate_documented]. Qed.
Print Assumptions C51_crate_request.

(** everybody's account stands where the documentation says, also in the tables that are wrong
    about flags, except that extend has no mint *)
Theorem C51_crate_roles : forall e who i,
  standard e who -> map mt_key (fst (crate_request e who i)) = map who (wanted_roles i).
Proof. exact crate_roles. Qed.
Print Assumptions C51_crate_roles.

Theorem C51_crate_flags : forall e who i n m,
  nth_error (fst (crate_request e who i)) n = Some m ->
  (mt_signer m = true <-> In n (must_sign i)) /\
  (mt_writable m = true <-> In n (may_change i ++ spare_writable i)).
Proof. exact crate_positions. Qed.
Print Assumptions C51_crate_flags.

Theorem C51_crate_complete : forall e ts who ms i L x,
  same_accounts i ms (fst (crate_request e who i)) ->
  exec e ts ms i L = Ok x ->
  exec e ts (fst (crate_request e who i)) (snd (crate_request e who i)) L = Ok x.
Proof.
  intros e ts who ms i L x A H. rewrite crate_asks.
  eapply built_complete; [apply crate_built|exact A|exact H].
Qed.
Print Assumptions C51_crate_complete.

Theorem C51_rust_client : forall e set rest i,
  (forall d, In d (documented i) ->
     set (d_role d) <> None \/ In (d_role d) [RRent; RTokenProgram; RSystemProgram]) ->
  rust_builder e set rest i =
    Some (documented_metas
            (fun r => match set r with
                      | Some k => k
                      | None => match r with
                                | RRent => rent_id e
                                | RTokenProgram => spl_token_id e
                                | _ => system_id
                                end
                      end) i ++ rest).
Proof. exact rust_builder_some. Qed.
Print Assumptions C51_rust_client.

Theorem C51_rust_client_incomplete : forall e set rest i d,
  In d (documented i) -> set (d_role d) = None ->
  ~ In (d_role d) [RRent; RTokenProgram; RSystemProgram] ->
  rust_builder e set rest i = None.
Proof. exact rust_builder_none. Qed.
Print Assumptions C51_rust_client_incomplete.

Theorem C51_js_client : forall e payer input i,
  typed input i ->
  js_accounts e payer input i = documented_metas (address e payer input) i.
Proof. exact js_typed. Qed.
Print Assumptions C51_js_client.

Theorem C51_js_client_incomplete : forall e payer input i n d,
  nth_error (documented i) n = Some d -> input (d_role d) = JNull ->
  ~ In (d_role d) [RPayer; RRent; RTokenProgram; RSystemProgram] ->
  nth_error (js_accounts e payer input i) n = Some (Meta (program_id e) false false).
Proof. exact js_left_out. Qed.
Print Assumptions C51_js_client_incomplete.

Theorem C51_documented_suffices : forall e ts who rest ms i L x,
  table_wrong i = false -> same_accounts i ms (documented_metas who i ++ rest) ->
  exec e ts ms i L = Ok x -> exec e ts (documented_metas who i ++ rest) i L = Ok x.
Proof. exact documented_complete. Qed.
Print Assumptions C51_documented_suffices.

(** one request of each kind in a reached ledger, through the crate's builder, the generated
    Rust builder and the generated JavaScript function: the last four are the ones whose
    table is wrong *)
Definition bob_accounts (r : arole) : pubkey :=
  match r with
  | RPool => POOL | RMint => MINT | RVault => vault_of POOL | RPayer => PAYER
  | RDepositAuthority => AUTH | RFillAuthority => FILLER | RDistributeAuthority => DISTR
  | RSource => SOURCE | RRent => rent_id env0 | RTokenProgram => spl_token_id env0
  | RSystemProgram => system_id | RMining => mining_of BOB POOL
  | RDelegateMining => mining_of ALICE POOL | ROwner => BOB | ROwnerToken => BOB_T
  | RTarget => BOB | ROldDelegateMining => mining_of ALICE POOL
  | RNewDelegateMining => mining_of CAROL POOL
  end.
(** MALLORY's mining does not exist yet *)
Definition mallory_accounts (r : arole) : pubkey :=
  match r with RMining => mining_of MALLORY POOL | _ => bob_accounts r end.
Definition pool2_accounts (r : arole) : pubkey :=
  match r with
  | RPool => POOL2 | RVault => vault_of POOL2 | RDepositAuthority => MALLORY | _ => bob_accounts r
  end.
Definition set_of (who : arole -> pubkey) (r : arole) : option pubkey :=
  match r with RRent | RTokenProgram | RSystemProgram => None | _ => Some (who r) end.
Definition input_of (who : arole -> pubkey) (r : arole) : jsval :=
  match r with
  | RRent | RTokenProgram | RSystemProgram | RPayer => JNull
  | RDepositAuthority | RFillAuthority | RDistributeAuthority | ROwner => JSigner (who r)
  | _ => JKey (who r)
  end.
Definition three_ways (L : ledger) (n : Z) (who : arole -> pubkey) (i : ix) : bool * bool * bool :=
  (runs L (at_noon n, crate_request env0 who i),
   match rust_builder env0 (set_of who) [] i with
   | Some ms => runs L (at_noon n, (ms, i))
   | None => false
   end,
   runs L (at_noon n, (js_accounts env0 PAYER (input_of who) i, i))).

Example C51_example :
  reached env0 (at_noon 104) L2 /\
  [three_ways L0 100 pool2_accounts (InitializePool MALLORY MALLORY);
   three_ways L2 105 bob_accounts (FillVault 10 (at_noon 120));
   three_ways L2 105 mallory_accounts (InitializeMining MALLORY);
   three_ways L2 105 bob_accounts Claim;
   three_ways L2 105 bob_accounts DistributeRewards;
   three_ways L2 105 bob_accounts (ChangeDelegate 250 CAROL);
   three_ways L2 105 bob_accounts (Slash BOB 10 10 None);
   three_ways L2 105 bob_accounts (DecreaseRewards BOB 10)]
    = repeat (true, true, true) 8 /\
  [three_ways L2 105 bob_accounts (DepositMining 10 LFlex BOB ALICE);
   three_ways L2 105 bob_accounts (WithdrawMining 10 BOB ALICE);
   three_ways L2 105 bob_accounts (ExtendStake LFlex L3M (at_noon 100) 5 0 BOB ALICE);
   three_ways L1 100 bob_accounts CloseMining]
    = repeat (true, false, false) 4.
Proof.
  split; [apply plays_reached; vm_compute; reflexivity|].
  split; vm_compute; reflexivity.
Qed.
Example C51_example_typed :
  (forall i, typed (input_of bob_accounts) i) /\
  (forall i d, In d (documented i) ->
     set_of bob_accounts (d_role d) <> None \/ In (d_role d) [RRent; RTokenProgram; RSystemProgram]).
Proof.
  split.
  - intros i d H. destruct i; cbn in H;
      intuition (subst d; cbn; try reflexivity; tauto).
  - intros i d H. destruct i; cbn in H;
      intuition (subst d; cbn; try tauto; left; discriminate).
Qed.
