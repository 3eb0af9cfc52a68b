(** Accounts, account metas, the AccountLoader, and the callees of the program
    (SPL token program, system program) as far as it uses them. *)
From stdpp Require Import gmap.
From Verif Require Import Base OMap State.

(** * Accounts *)

(** An SPL token account (dependency spl_token::state::Account): the fields the
    program or the modelled transfer reads.  Simplified: no SPL delegate, no
    frozen state, no native mint, no multisig owner. *)
Record token := Token { t_mint : pubkey; t_owner : pubkey; t_amount : Z }.

(** Account data, by what it can be read as.  1776 zero bytes are
    [DMining zero_wmining], 64480 zero bytes are [DPool zero_wpool];
    [DZeros n] is n zero bytes for the other n; [DOther n] is any other
    data of length n. *)
Inductive adata :=
| DEmpty
| DZeros (n : Z)
| DPool (p : wpool)
| DMining (m : wmining)
| DToken (t : token)
| DMint
| DOther (n : Z).

(** AccountInfo (dependency): lamports, owner and data; executable and rent_epoch are not modelled *)
Record account := Account { a_lamports : Z; a_owner : pubkey; a_data : adata }.

(** Accounts of the chain by address; an absent address is an empty account
    of the system program. *)
Definition ledger := gmap Z account.

(** system_program::id() is the all-zero key (dependency). *)
Definition system_id : pubkey := 0.
(** what an address holds that was never used *)
Definition empty_account : account := Account 0 system_id DEmpty.
(** the account at an address (dependency) *)
Definition acc (L : ledger) (k : pubkey) : account :=
  match L !! k with Some a => a | None => empty_account end.

(** WrappedMining::LEN (mining.rs 38-39), WrappedRewardPool::LEN (reward_pool.rs 69),
    Mining::LEN (mining.rs 147), RewardPool::LEN (reward_pool.rs 461),
    SPL Account::LEN and Mint::LEN (dependency). *)
Definition MINING_LEN : Z := 1776.
(** reward_pool.rs 69 *)
Definition POOL_LEN : Z := 64480.
(** mining.rs 147: size_of Mining *)
Definition MINING_HDR_LEN : Z := 144.
(** reward_pool.rs 461: size_of RewardPool *)
Definition POOL_HDR_LEN : Z := 176.
(** spl_token Account::LEN (dependency) *)
Definition TOKEN_LEN : Z := 165.
(** spl_token Mint::LEN (dependency) *)
Definition MINT_LEN : Z := 82.

(** account.data_len(): asserts.rs 75-85 *)
Definition data_len (d : adata) : Z :=
  match d with
  | DEmpty => 0 | DZeros n => n | DPool _ => POOL_LEN | DMining _ => MINING_LEN
  | DToken _ => TOKEN_LEN | DMint => MINT_LEN | DOther n => n
  end.

(** n zero bytes *)
Definition zeros (n : Z) : adata :=
  if n =? 0 then DEmpty
  else if n =? MINING_LEN then DMining zero_wmining
  else if n =? POOL_LEN then DPool zero_wpool
  else DZeros n.

(** used in [all_zero]: a tree of zero bytes is the empty one *)
Definition tmap_eqb (a b : tmap) : bool :=
  bool_decide (a = b).
(** every byte is zero; used by next_uninitialized, utils.rs 154-158.
    Token accounts, mints and other data are not all zero. *)
Definition all_zero (d : adata) : bool :=
  match d with
  | DEmpty | DZeros _ => true
  | DPool (WPool (Pool a b c m i t e v bu ty) ds ci) =>
      (a =? 0) && (b =? 0) && (c =? 0) && (m =? 0) && (i =? 0) && (t =? 0) && (e =? 0)
      && (v =? 0) && (bu =? 0) && (ty =? 0) && tmap_eqb ds [] && tmap_eqb ci []
  | DMining (WMining (Mining a b c i s u f bu ty) ds) =>
      (a =? 0) && (b =? 0) && (c =? 0) && (i =? 0) && (s =? 0) && (u =? 0) && (f =? 0)
      && (bu =? 0) && (ty =? 0) && tmap_eqb ds []
  | DToken _ | DMint | DOther _ => false
  end.

(** WrappedMining::from_bytes_mut, mining.rs 41-53, and
    WrappedImmutableMining::from_bytes, mining.rs 243-255.  split_at and
    load_mut_bytes (dependency sokoban) take the first bytes and panic when there
    are too few; the error of a misaligned address cannot occur, account data and
    all offsets being multiples of eight.  So data longer than a mining are read
    as well, by their first 1776 bytes; such calls are left to Overlay.v ([EWide]). *)
Definition load_mining (d : adata) : res wmining :=
  match d with
  | DMining m => Ok m
  | _ => if data_len d <? MINING_LEN then Err EPanic else Err EWide
  end.

(** Bytes of a pool account in use on chain: the header, the expiries, and a
    history of 1095 slots of 40 bytes (u128 is aligned to eight there). *)
Definition POOL_USED_LEN : Z := 55720.
(** WrappedRewardPool::from_bytes_mut, reward_pool.rs 71-90; as for minings.
    Longer data that are no pool are not modelled ([EWide]): they are all zero in
    the three keys, which the authorities that sign are compared with. *)
Definition load_pool (d : adata) : res wpool :=
  match d with
  | DPool p => Ok p
  | _ => if data_len d <? POOL_USED_LEN then Err EPanic else Err EWide
  end.

(** spl_token Account::unpack (dependency), claim.rs 28 *)
Definition load_token (d : adata) : res token :=
  match d with DToken t => Ok t | _ => Err EToken end.

(** storing data into an account *)
Definition put_data (L : ledger) (k : pubkey) (d : adata) : ledger :=
  <[k := Account (a_lamports (acc L k)) (a_owner (acc L k)) d]> L.
(** **account.lamports.borrow_mut() = x: close_mining.rs 49-50 *)
Definition put_lamports (L : ledger) (k : pubkey) (x : Z) : ledger :=
  <[k := Account x (a_owner (acc L k)) (a_data (acc L k))]> L.

(** * Environment: program ids, program-derived addresses, rent.
    [find_mining owner pool] / [find_vault pool mint] model
    utils.rs 21-34 and 37-50; [cpa_mining owner pool bump] /
    [cpa_vault pool mint bump] model create_program_address with the seeds of
    utils.rs 348-363, asserts.rs 112-120 / claim.rs 49-58, fill_vault.rs 36-45
    ([None]: the derivation fails). [rent_min] is Rent::minimum_balance. *)
Record env := Env {
  program_id : pubkey;
  spl_token_id : pubkey;
  rent_id : pubkey;
  find_mining : pubkey -> pubkey -> pubkey * Z;
  cpa_mining : pubkey -> pubkey -> Z -> option pubkey;
  find_vault : pubkey -> pubkey -> pubkey * Z;
  cpa_vault : pubkey -> pubkey -> Z -> option pubkey;
  rent_min : Z -> Z }.

(** * Account metas and AccountLoader *)

(** solana AccountMeta (dependency) *)
Record meta := Meta { mt_key : pubkey; mt_signer : bool; mt_writable : bool }.

(** The runtime gives every mention of a key the same flags: signer (writable)
    if any mention is. *)
Definition is_signer (ms : list meta) (k : pubkey) : bool :=
  existsb (fun m => (mt_key m =? k) && mt_signer m) ms.
(** AccountInfo::is_writable (dependency) *)
Definition is_writable (ms : list meta) (k : pubkey) : bool :=
  existsb (fun m => (mt_key m =? k) && mt_writable m) ms.

(** utils.rs 149-163; the loaders return the account's key and the rest of
    the iterator *)
Definition next_uninitialized (L : ledger) (it : list meta) : res (pubkey * list meta) :=
  match it with
  | [] => Err ENotEnoughKeys
  | m :: r => if all_zero (a_data (acc L (mt_key m))) then Ok (mt_key m, r) else Err EAlreadyInit
  end.

(** utils.rs 166-183 *)
Definition next_with_owner (L : ledger) (owner : pubkey) (it : list meta) : res (pubkey * list meta) :=
  match it with
  | [] => Err ENotEnoughKeys
  | m :: r => if a_owner (acc L (mt_key m)) =? owner then Ok (mt_key m, r)
              else Err InvalidAccountOwner
  end.

(** utils.rs 186-202 *)
Definition next_with_key (key : pubkey) (it : list meta) : res (pubkey * list meta) :=
  match it with
  | [] => Err ENotEnoughKeys
  | m :: r => if mt_key m =? key then Ok (mt_key m, r) else Err EInvalidArgument
  end.

(** utils.rs 205-215; [all] are all metas of the instruction *)
Definition next_signer (all : list meta) (it : list meta) : res (pubkey * list meta) :=
  match it with
  | [] => Err ENotEnoughKeys
  | m :: r => if is_signer all (mt_key m) then Ok (mt_key m, r) else Err EMissingSignature
  end.

(** asserts.rs 37-48 *)
Definition assert_account_key (k expected : pubkey) : res unit :=
  ensure (k =? expected) EInvalidArgument.

(** [?] on create_program_address (PubkeyError into ProgramError) *)
Definition pda (o : option pubkey) : res pubkey :=
  match o with Some k => Ok k | None => Err EPda end.

(** * Callees *)

(** spl_token Transfer (dependency) as invoked by utils.rs 90-107.  The
    authority is a signer of the enclosing instruction.  Source and destination
    must be writable there (no privilege escalation in CPI). *)
Definition spl_transfer (ms : list meta) (L : ledger) (src dst auth : pubkey) (amount : Z)
  : res ledger :=
  check? is_writable ms src && is_writable ms dst else EPrivilege in
  check? is_signer ms auth else EPrivilege in
  let? s := load_token (a_data (acc L src)) in
  let? d := load_token (a_data (acc L dst)) in
  check? amount <=? t_amount s else EToken in
  check? t_mint s =? t_mint d else EToken in
  check? t_owner s =? auth else EToken in
  if src =? dst then Ok L
  else
    check? t_amount d + amount <? U64 else EToken in
    let L1 := put_data L src (DToken (Token (t_mint s) (t_owner s) (t_amount s - amount))) in
    Ok (put_data L1 dst (DToken (Token (t_mint d) (t_owner d) (t_amount d + amount)))).

(** system_program CreateAccount (dependency) as invoked by utils.rs 53-71 and
    initialize_mining.rs 33-41.  [to] signs through its seeds. *)
Definition create_account (ms : list meta) (L : ledger) (from to : pubkey) (lamports space : Z)
    (owner : pubkey) : res ledger :=
  check? is_writable ms from && is_writable ms to else EPrivilege in
  check? is_signer ms from else EPrivilege in
  check? a_lamports (acc L to) =? 0 else ESystem in
  check? (a_owner (acc L to) =? system_id) && (data_len (a_data (acc L to)) =? 0) else ESystem in
  check? (a_owner (acc L from) =? system_id) && (data_len (a_data (acc L from)) =? 0)
         && negb (from =? to) else ESystem in
  check? lamports <=? a_lamports (acc L from) else ESystem in
  let L1 := put_lamports L from (a_lamports (acc L from) - lamports) in
  Ok (<[to := Account lamports owner (zeros space)]> L1).

(** spl_token InitializeAccount (dependency) as invoked by utils.rs 74-88 *)
Definition initialize_account (ms : list meta) (L : ledger) (account mint auth : pubkey)
  : res ledger :=
  check? is_writable ms account else EPrivilege in
  match a_data (acc L account), a_data (acc L mint) with
  | DZeros n, DMint =>
      check? n =? TOKEN_LEN else EToken in
      Ok (put_data L account (DToken (Token mint auth 0)))
  | _, _ => Err EToken
  end.

(** * Post-execution check of the runtime (dependency): an account that
    changed must have been passed as writable. *)
#[global] Instance wmining_eq_dec : EqDecision wmining.
Proof.
  intros [[] ?] [[] ?]; unfold Decision; repeat decide equality.
Defined.
#[global] Instance wpool_eq_dec : EqDecision wpool.
Proof.
  intros [[] ? ?] [[] ? ?]; unfold Decision; repeat decide equality.
Defined.
#[global] Instance account_eq_dec : EqDecision account.
Proof.
  intros [? ? d] [? ? d']; unfold Decision.
  assert ({d = d'} + {d <> d'}).
  { destruct d, d'; try (right; discriminate); try (left; reflexivity).
    - destruct (Z.eq_dec n n0); [left|right]; congruence.
    - destruct (wpool_eq_dec p p0); [left|right]; congruence.
    - destruct (wmining_eq_dec m m0); [left|right]; congruence.
    - destruct t, t0; repeat (decide equality).
    - destruct (Z.eq_dec n n0); [left|right]; congruence. }
  destruct H; [|right; congruence].
  destruct (Z.eq_dec a_lamports0 a_lamports1); [|right; congruence].
  destruct (Z.eq_dec a_owner0 a_owner1); [left|right]; congruence.
Defined.

(** runtime (dependency): an account not passed as writable has to be as before *)
Definition readonly_ok (ms : list meta) (L L' : ledger) : bool :=
  forallb (fun m => is_writable ms (mt_key m)
                    || bool_decide (acc L (mt_key m) = acc L' (mt_key m))) ms.
