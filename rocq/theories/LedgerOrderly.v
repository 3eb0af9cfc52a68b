(** Deciding that a concrete history (Scenario.v) is orderly.  Nothing here transcribes /repo. *)
From stdpp Require Import gmap.
From Verif Require Import Base OMap State Spec Core Ledger Program LedgerLemmas LedgerSpec CodecLemmas History
  Clients CoreRun Witness Scenario Attacks LedgerView LedgerCore.

Definition key_at (ms : list meta) (n : nat) : pubkey := nth n (map mt_key ms) (-1).
Lemma key_at_ok ms n k : account_at ms n k -> key_at ms n = k.
Proof. unfold account_at, key_at. intros H. apply nth_error_nth. assumption. Qed.

Definition in_pool_b (L : ledger) (k p : pubkey) : bool :=
  match data_of L k with
  | DMining m => (owner_of L k =? 2) && (m_pool (wm m) =? p)
  | _ => false
  end.
Lemma in_pool_ok L k p : in_pool_b L k p = true <-> exists m, mining_in env0 L p k m.
Proof.
  unfold in_pool_b, mining_in, is_mining. destruct (data_of L k) eqn:E; split; try discriminate;
    try (intros (? & (_ & ?) & _); discriminate).
  - intros H. apply andb_true_iff in H as [H1 H2]. apply Z.eqb_eq in H1, H2. eauto.
  - intros (x & (Ho & Hd) & Hp). injection Hd as ->. cbn in Ho. rewrite Ho, Hp, !Z.eqb_refl. reflexivity.
Qed.

(** the vault of [P], if it is a pool *)
Definition vault_now (L : ledger) (P : pubkey) : option pubkey :=
  match data_of L P with
  | DPool w => if p_type (wp w) =? 1 then cpa_vault env0 P (p_mint (wp w)) (p_bump (wp w)) else None
  | _ => None
  end.
Lemma vault_now_ok L P V w : pool_vault env0 L P V w -> vault_now L P = Some V.
Proof. intros ([_ Hd] & Ht & HV). unfold vault_now. rewrite Hd, Ht. exact HV. Qed.

Definition orderly_ix_b (P : pubkey) (b : Z -> op -> core -> bool) (now ts : Z) (ms : list meta) (i : ix) (L : ledger)
  : bool :=
  negb (is_signer ms system_id) &&
  match i with
  | InitializePool _ _ => negb (key_at ms 0 =? P) || (0 <? a_lamports (acc L P))
  | FillVault _ _ => (key_at ms 0 =? P) || negb (key_at ms 4 mod 4 =? 3)
  | ChangeDelegate _ _ => (key_at ms 4 =? key_at ms 1) || in_pool_b L (key_at ms 4) (key_at ms 0)
  | CloseMining => negb (in_pool_b L (key_at ms 0) P) || (key_at ms 4 =? P)
  | _ => true
  end &&
  match vault_now L P, op_of env0 P ms i with
  | Some V, Some o => b ts o (core_of env0 P V now L)
  | _, _ => true
  end.

Lemma orderly_ix_ok P b (D : Z -> op -> core -> Prop) now ts ms i L :
  (forall ts o c, b ts o c = true -> D ts o c) ->
  orderly_ix_b P b now ts ms i L = true -> orderly_ix env0 P D now ts ms i L.
Proof.
  intros Hb H. unfold orderly_ix_b in H. apply andb_true_iff in H as [H H3]. apply andb_true_iff in H as [H1 H2].
  constructor.
  - intros Hs. apply is_signer_ok in Hs. rewrite Hs in H1. discriminate.
  - intros f d -> A. rewrite (key_at_ok _ _ _ A), Z.eqb_refl in H2. cbn in H2. lia.
  - intros r x p s m b0 -> A0 Hne A. rewrite (key_at_ok _ _ _ A), (key_at_ok _ _ _ A0) in H2.
    rewrite (proj2 (Z.eqb_neq _ _) Hne) in H2. cbn [orb] in H2. cbn [cpa_vault env0]. intros E. injection E as <-.
    replace (_ mod 4) with 3 in H2; [discriminate|].
    rewrite Z.add_comm, Z.mul_comm, Z.mod_add by lia. reflexivity.
  - intros a n p k od -> A0 A1 A4. rewrite (key_at_ok _ _ _ A0), (key_at_ok _ _ _ A1), (key_at_ok _ _ _ A4) in H2.
    apply orb_true_iff in H2 as [H2|H2]; [left; apply Z.eqb_eq; assumption|right].
    apply in_pool_ok. assumption.
  - intros k m p -> A0 A4 Hm Hp. rewrite (key_at_ok _ _ _ A0), (key_at_ok _ _ _ A4) in H2.
    apply orb_true_iff in H2 as [H2|H2]; [|apply Z.eqb_eq; assumption].
    rewrite (proj2 (in_pool_ok L k P)) in H2; [discriminate|]. exists m. split; assumption.
  - intros V w o HV Ho. rewrite (vault_now_ok _ _ _ _ HV), Ho in H3. apply Hb. assumption.
Qed.

Fixpoint orderly_b (P : pubkey) (b : Z -> op -> core -> bool) (now : Z) (L : ledger) (l : list call) : bool :=
  match l with
  | [] => true
  | (ts, (ms, i)) :: r =>
      orderly_ix_b P b now ts ms i L &&
      match exec env0 ts ms i L with Ok (L', _) => orderly_b P b ts L' r | Err _ => false end
  end.

Lemma orderly_b_run P b (D : Z -> op -> core -> Prop) (Hb : forall ts o c, b ts o c = true -> D ts o c) l :
  forall now L now' L', play now L l = Ok (now', L') -> orderly_b P b now L l = true ->
  orderly_run env0 P D now L now' L'.
Proof.
  induction l as [|[ts [ms i]] r IH]; cbn [play orderly_b]; intros now L now' L' H HB.
  - injection H as <- <-. constructor.
  - destruct ((now <=? ts) && u64_b ts && range_b i) eqn:E; [|discriminate].
    destruct (exec env0 ts ms i L) as [[L1 x]|] eqn:Ex; [|discriminate]. cbn [ensure rbind] in H.
    apply andb_true_iff in E as [E Er]. apply andb_true_iff in E as [E1 E2].
    apply andb_true_iff in HB as [HB1 HB2]. unfold u64_b in E2.
    apply (or_ix env0 P D now L ts ms i L1 x); [lia|unfold is_u64; lia|apply range_b_ok; exact Er|exact Ex| |apply IH; eassumption].
    eapply orderly_ix_ok; eassumption.
Qed.

Lemma genesis0_derived k : derived env0 k -> owner_of L0 k = system_id.
Proof.
  intros H. assert (Hk : k mod 2 = 1).
  { destruct H as [(o & p & b & E)|(p & m & b & E)]; cbn in E; injection E as <-.
    - replace (4 * code o p b + 1) with (1 + (2 * code o p b) * 2) by lia. rewrite Z.mod_add by lia. reflexivity.
    - replace (4 * code p m b + 3) with (1 + (2 * code p m b + 1) * 2) by lia. rewrite Z.mod_add by lia. reflexivity. }
  unfold owner_of, L0.
  repeat (rewrite acc_insert_ne by (intros <-; discriminate Hk)).
  unfold acc, ledger. rewrite lookup_empty. reflexivity.
Qed.

Definition orderly_play (P : pubkey) (b : Z -> op -> core -> bool) (l : list call) : bool := orderly_b P b 0 L0 l.

Lemma orderly_play_ok P b (D : Z -> op -> core -> Prop) l now :
  (forall ts o c, b ts o c = true -> D ts o c) ->
  plays l now = true -> orderly_play P b l = true -> orderly env0 P D now (ledger_after l).
Proof.
  intros Hb Hp Ho. exists L0. split; [exact genesis0|]. split; [exact genesis0_derived|].
  eapply orderly_b_run; [exact Hb|apply plays_ok; exact Hp|exact Ho].
Qed.

(** ** The histories of Witness.v as instructions: staker 1 is ALICE, 2 BOB, 3 CAROL; one
    person is both deposit and fill authority *)
Definition who (k : Z) : pubkey := if k =? 1 then ALICE else if k =? 2 then BOB else CAROL.
Definition purse (k : Z) : pubkey := if k =? 1 then ALICE_T else if k =? 2 then BOB_T else CAROL_T.
Definition mn (k : Z) : pubkey := mining_of (who k) POOL.
Definition dm (k : Z) (d : option pubkey) : pubkey := match d with Some x => mn x | None => mn k end.
Definition dw (k : Z) (d : option pubkey) : pubkey := match d with Some x => who x | None => who k end.
Definition call_of (o : op) : list meta * ix :=
  match o with
  | ODeposit k a p d => b_deposit POOL (mn k) FILLER (dm k d) a p (who k) (dw k d)
  | OWithdraw k a d => b_withdraw POOL (mn k) FILLER (dm k d) a (who k) (dw k d)
  | OExtend k op np s b a d => b_extend POOL (mn k) FILLER (dm k d) op np s b a (who k) (dw k d)
  | OChange k od nd a => b_change POOL (mn k) FILLER (who k) (dm k od) (dm k nd) (dw k nd) a
  | OSlash k n w d => b_slash FILLER POOL (mn k) (who k) n w d
  | ODecrease k n => b_decrease FILLER POOL (mn k) (who k) n
  | OClaim k => b_claim env0 POOL MINT (vault_of POOL) (mn k) (who k) FILLER (purse k)
  | OFill r x false => b_fill_vault env0 POOL MINT (vault_of POOL) FILLER SOURCE r x
  | OFill r x true => b_fill_vault env0 POOL MINT (vault_of POOL) FILLER (vault_of POOL) r x
  | ODistribute | ODonate _ => b_distribute POOL DISTR
  | OInit k _ _ _ => b_initialize_mining POOL (mn k) PAYER (who k)
  | OClose k => b_close (mn k) (who k) PAYER FILLER POOL
  end.
Definition as_calls (l : list (Z * op)) : list call :=
  (0, b_initialize_pool env0 POOL MINT (vault_of POOL) PAYER FILLER FILLER DISTR)
  :: map (fun x => (fst x, call_of (snd x))) l.

(** what the claims of the stakers would return, each on its own *)
Definition claim_now (ts : Z) (L : ledger) (k : Z) : option Z :=
  match exec env0 ts (fst (call_of (OClaim k))) Claim L with Ok (_, r) => r | Err _ => None end.
Definition due_now (ts : Z) (L : ledger) (ks : list Z) : list (pubkey * Z) :=
  omap (fun k => option_map (fun a => (mn k, a)) (claim_now ts L k)) ks.


Fixpoint distinct_b (l : list Z) : bool :=
  match l with [] => true | x :: r => negb (existsb (Z.eqb x) r) && distinct_b r end.
Lemma distinct_b_ok l : distinct_b l = true -> List.NoDup l.
Proof.
  induction l as [|x r IH]; cbn; intros H; constructor; apply andb_true_iff in H as [H1 H2]; [|auto].
  intros Hin. apply negb_true_iff in H1. assert (H : existsb (Z.eqb x) r = true); [|congruence].
  apply existsb_exists. exists x. split; [assumption|apply Z.eqb_refl].
Qed.

Definition pool_now (L : ledger) : wpool := pool_of L POOL.
Definition has_pool (L : ledger) : bool :=
  (owner_of L POOL =? 2) && match data_of L POOL with DPool w => p_type (wp w) =? 1 | _ => false end &&
  match vault_now L POOL with Some V => V =? vault_of POOL | None => false end.
Lemma has_pool_ok L : has_pool L = true -> pool_vault env0 L POOL (vault_of POOL) (pool_now L).
Proof.
  unfold has_pool, pool_vault, is_pool, pool_now, pool_of, vault_now. intros H.
  apply andb_true_iff in H as [H H3]. apply andb_true_iff in H as [H1 H2]. apply Z.eqb_eq in H1.
  destruct (data_of L POOL) as [| |w| | | |]; try discriminate. rewrite H2 in H3. apply Z.eqb_eq in H2.
  split; [split; [assumption|reflexivity]|]. split; [assumption|].
  destruct (cpa_vault env0 POOL (p_mint (wp w)) (p_bump (wp w))); [|discriminate].
  apply Z.eqb_eq in H3. subst. reflexivity.
Qed.

Definition exceeds_b (ts : Z) (L : ledger) (ks : list Z) : bool :=
  has_pool L && distinct_b (map fst (due_now ts L ks)) &&
  (balance L (vault_of POOL) <? p_avail (wp (pool_now L)) + zsum (map snd (due_now ts L ks))).
Definition refused_b (ts : Z) (L : ledger) (k : Z) : bool :=
  has_pool L && (owner_of L MINT =? 4) && (p_mint (wp (pool_now L)) =? MINT) &&
  (p_deposit_auth (wp (pool_now L)) =? FILLER) &&
  match data_of L (mn k), data_of L (purse k) with
  | DMining m, DToken t =>
      (owner_of L (mn k) =? 2) && (m_pool (wm m) =? POOL) && (m_owner (wm m) =? who k) &&
      (owner_of L (purse k) =? 4) && (t_owner t =? who k) && (t_mint t =? MINT) && negb (purse k =? vault_of POOL) &&
      (t_amount t + balance L (vault_of POOL) <? U64)
  | _, _ => false
  end &&
  match exec env0 ts (fst (call_of (OClaim k))) Claim L with Err EToken => true | _ => false end.

Lemma exceeds_ok ts L ks : exceeds_b ts L ks = true -> ledger_insolvent env0 ts L POOL.
Proof.
  unfold exceeds_b. intros H. apply andb_true_iff in H as [H H3]. apply andb_true_iff in H as [H1 H2].
  exists (vault_of POOL), (pool_now L). split; [apply has_pool_ok; assumption|]. left.
  exists (due_now ts L ks). split; [apply distinct_b_ok; assumption|]. split; [|lia].
  intros k a Hin. unfold due_now in Hin. apply elem_of_list_In, elem_of_list_omap in Hin as (x & _ & Hx).
  unfold claim_now in Hx. destruct (exec env0 ts (fst (call_of (OClaim x))) Claim L) as [[L' r]|] eqn:E; [|discriminate].
  destruct r as [a'|]; [|discriminate]. cbn in Hx. injection Hx as <- <-.
  exists (fst (call_of (OClaim x))), L'. split; [reflexivity|]. split; [reflexivity|assumption].
Qed.
Lemma refused_ok ts L k : refused_b ts L k = true -> ledger_insolvent env0 ts L POOL.
Proof.
  unfold refused_b. intros H.
  apply andb_true_iff in H as [H HX]. apply andb_true_iff in H as [H H4]. apply andb_true_iff in H as [H H3].
  apply andb_true_iff in H as [H H2]. apply andb_true_iff in H as [H1 H0].
  apply Z.eqb_eq in H3, H2, H0.
  destruct (data_of L (mn k)) eqn:Dk; try discriminate. destruct (data_of L (purse k)) eqn:Dp; try discriminate.
  repeat (apply andb_true_iff in H4 as [H4 ?]). apply negb_true_iff in H5. apply Z.eqb_neq in H5.
  apply Z.eqb_eq in H4, H6, H7, H8, H9, H10. apply Z.ltb_lt in H.
  exists (vault_of POOL), (pool_now L). split; [apply has_pool_ok; assumption|]. right.
  exists (mn k), m, (purse k). split; [split; [split; assumption|assumption]|]. split.
  - exists t. rewrite H2. split; [split; assumption|]. repeat (split; [congruence || assumption|]). assumption.
  - rewrite H2, H3, H9. split; [assumption|]. cbn [call_of] in HX.
    destruct (exec env0 ts (fst (b_claim env0 POOL MINT (vault_of POOL) (mn k) (who k) FILLER (purse k))) Claim L) as [|[]]; congruence.
Qed.

Lemma ledger_conditions_needed x :
  exists now L, orderly env0 POOL (all_but x) now L /\ ledger_insolvent env0 now L POOL.
Proof.
  destruct x.
  - exists (noon 102), (ledger_after (as_calls h_new_delegate)). split.
    + apply (orderly_play_ok _ _ _ _ _ (all_but_b_ok _)); vm_compute; reflexivity.
    + apply (exceeds_ok _ _ [1; 2; 3]). vm_compute. reflexivity.
  - exists (noon 191), (ledger_after (as_calls h_early_extend)). split.
    + apply (orderly_play_ok _ _ _ _ _ (all_but_b_ok _)); vm_compute; reflexivity.
    + apply (refused_ok _ _ 1). vm_compute. reflexivity.
  - exists (noon 602), (ledger_after (as_calls h_slots)). split.
    + apply (orderly_play_ok _ _ _ _ _ (all_but_b_ok _)); vm_compute; reflexivity.
    + apply (refused_ok _ _ 1). vm_compute. reflexivity.
  - exists (noon 101), (ledger_after (as_calls h_midnight)). split.
    + apply (orderly_play_ok _ _ _ _ _ (all_but_b_ok _)); vm_compute; reflexivity.
    + apply (refused_ok _ _ 2). vm_compute. reflexivity.
  - exists (noon 190), (ledger_after (as_calls h_locked)). split.
    + apply (orderly_play_ok _ _ _ _ _ (all_but_b_ok _)); vm_compute; reflexivity.
    + apply (refused_ok _ _ 2). vm_compute. reflexivity.
  - exists (noon 100), (ledger_after (as_calls h_self_fill)). split.
    + apply (orderly_play_ok _ _ _ _ _ (all_but_b_ok _)); vm_compute; reflexivity.
    + apply (exceeds_ok _ _ [1]). vm_compute. reflexivity.
Qed.

(** An orderly history with every stake operation. *)
Definition rich : list call := as_calls
  [init 1; init 2; init 3;
   (noon 100, ODeposit 1 100 L3M None);
   (noon 100, ODeposit 2 1000 LFlex (Some 1));
   (noon 100, ODeposit 3 50 L1Y None);
   (noon 100, OFill 100000 (noon 200) false);
   (noon 101, ODistribute);
   (noon 102, OClaim 1);
   (noon 102, ODistribute);
   (noon 103, OClaim 3);
   (noon 103, OChange 2 (Some 1) (Some 3) 400);
   (noon 103, OWithdraw 2 300 (Some 1));
   (noon 103, OSlash 3 10 60 (Some (noon 465)));
   (noon 104, ODistribute);
   (noon 191, ODistribute);
   (noon 192, OExtend 1 L3M L6M (noon 100) 100 20 None);
   (noon 193, ODistribute);
   (noon 194, OClaim 2)].
Definition LR : ledger := ledger_after rich.
Definition minings_now (L : ledger) : list (pubkey * wmining) :=
  omap (fun o => match data_of L (mn o) with DMining m => Some (mn o, m) | _ => None end) [1; 2; 3].
