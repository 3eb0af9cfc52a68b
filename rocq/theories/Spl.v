(** The token program in full, as far as this program calls it (dependency spl_token;
    utils.rs 74-107).

    Ledger.v has token accounts with a mint, an owner and an amount.  Real ones may also
    be frozen by the mint's freeze authority, may have a delegate with an allowance, may hold wrapped
    lamports, and their owner may be a multisig account.  Here these are kept in a second map next
    to the ledger, and the two instructions that move tokens (fill_vault.rs, claim.rs) and the one that
    opens a token account (initialize_pool.rs) are run with it. *)
From stdpp Require Import gmap.
From Verif Require Import Base OMap State Ledger Program.

(** the fields of spl_token::state::Account (dependency) that Ledger.v leaves out: delegate,
    delegated_amount, state = Frozen, is_native *)
Record extra := Extra { x_delegate : option pubkey; x_allowance : Z; x_frozen : bool; x_native : bool }.
(** those of a new account *)
Definition no_extra : extra := Extra None 0 false false.
(** by address; an absent address has none of them *)
Definition extras := gmap Z extra.
(** the extra fields at an address *)
Definition extra_at (X : extras) (k : pubkey) : extra :=
  match X !! k with Some x => x | None => no_extra end.

(** spl_token Multisig::LEN (dependency) *)
Definition MULTISIG_LEN : Z := 355.
(** Processor::validate_owner (dependency) takes an account of the token program of that length for a
    multisig and then asks for signatures of further accounts; utils.rs 97-104 passes none,
    so such an authority is always refused *)
Definition is_multisig (e : env) (L : ledger) (k : pubkey) : bool :=
  (a_owner (acc L k) =? spl_token_id e) && (data_len (a_data (acc L k)) =? MULTISIG_LEN).

(** the authority is the delegate of the account *)
Definition by_delegate (x : extra) (auth : pubkey) : bool := bool_decide (x_delegate x = Some auth).

(** the allowance after [amount] of it was used; a used up one is forgotten *)
Definition use_allowance (x : extra) (amount : Z) : extra :=
  Extra (if x_allowance x - amount =? 0 then None else x_delegate x) (x_allowance x - amount)
    (x_frozen x) (x_native x).

(** spl_token Transfer (dependency, Processor::process_transfer) as invoked by utils.rs 90-107 *)
Definition full_transfer (e : env) (ms : list meta) (L : ledger) (X : extras) (src dst auth : pubkey) (amount : Z)
  : res (ledger * extras) :=
  check? is_writable ms src && is_writable ms dst else EPrivilege in
  check? is_signer ms auth else EPrivilege in
  let? s := load_token (a_data (acc L src)) in
  let? d := load_token (a_data (acc L dst)) in
  let x := extra_at X src in
  check? negb (x_frozen x || x_frozen (extra_at X dst)) else EToken in
  check? amount <=? t_amount s else EToken in
  check? t_mint s =? t_mint d else EToken in
  check? (if by_delegate x auth then amount <=? x_allowance x else t_owner s =? auth) else EToken in
  check? negb (is_multisig e L auth) else EToken in
  if src =? dst then Ok (L, X)
  else
    check? t_amount d + amount <? U64 else EToken in
    let L1 := put_data L src (DToken (Token (t_mint s) (t_owner s) (t_amount s - amount))) in
    let L2 := put_data L1 dst (DToken (Token (t_mint d) (t_owner d) (t_amount d + amount))) in
    let X1 := if by_delegate x auth then <[src := use_allowance x amount]> X else X in
    if x_native x then
      check? amount <=? a_lamports (acc L src) else EToken in
      check? a_lamports (acc L dst) + amount <? U64 else EToken in
      Ok (put_lamports (put_lamports L2 src (a_lamports (acc L src) - amount)) dst (a_lamports (acc L dst) + amount), X1)
    else Ok (L2, X1).

(** fill_vault.rs 11-71, up to the transfer: the ledger, and source, vault and authority of the
    transfer *)
Definition fill_part (e : env) (ts : Z) (ms : list meta) (L : ledger) (rewards ends_at : Z)
  : res (ledger * pubkey * pubkey * pubkey) :=
  let? (pool, it) := next_with_owner L (program_id e) ms in
  let? (mint, it) := next_with_owner L (spl_token_id e) it in
  let? (vault, it) := next_with_owner L (spl_token_id e) it in
  let? (auth, it) := next_signer ms it in
  let? (source, it) := next_with_owner L (spl_token_id e) it in
  let? (_, it) := next_with_key (spl_token_id e) it in
  check? negb (rewards =? 0) else RewardsMustBeGreaterThanZero in
  let? w := load_pool (a_data (acc L pool)) in
  let? _ := assert_account_key auth (p_fill_auth (wp w)) in
  let? vk := pda (cpa_vault e pool mint (p_bump (wp w))) in
  let? _ := assert_account_key vault vk in
  let? w' := fill_pool ts rewards ends_at w in
  let? _ := distinct auth pool EBorrow in
  Ok (put_pool L pool w', source, vault, auth).

(** claim.rs 13-67, up to the transfer: the ledger, vault, destination and authority of the transfer,
    and the amount *)
Definition claim_part (e : env) (ts : Z) (ms : list meta) (L : ledger)
  : res (ledger * pubkey * pubkey * pubkey * Z) :=
  let? (pool, it) := next_with_owner L (program_id e) ms in
  let? (mint, it) := next_with_owner L (spl_token_id e) it in
  let? (vault, it) := next_with_owner L (spl_token_id e) it in
  let? (mining, it) := next_with_owner L (program_id e) it in
  let? (owner, it) := next_signer ms it in
  let? (auth, it) := next_signer ms it in
  let? (dest, it) := next_with_owner L (spl_token_id e) it in
  let? (_, it) := next_with_key (spl_token_id e) it in
  let? t := load_token (a_data (acc L dest)) in
  let? _ := assert_account_key owner (t_owner t) in
  let? w := load_pool (a_data (acc L pool)) in
  let? _ := assert_account_key auth (p_deposit_auth (wp w)) in
  let? _ := distinct mining pool EPanic in
  let? m := load_mining (a_data (acc L mining)) in
  let? _ := assert_account_key owner (m_owner (wm m)) in
  let? _ := assert_account_key pool (m_pool (wm m)) in
  let? vk := pda (cpa_vault e pool mint (p_bump (wp w))) in
  let? _ := assert_account_key vault vk in
  let? m1 := refresh ts (wp_ci w) m in
  Ok (put_mining L mining (WMining (mining_claim (wm m1)) (wm_diffs m1)), vault, dest, auth, m_unclaimed (wm m1)).

(** spl_token InitializeAccount (dependency): the account opened by initialize_pool.rs 49-60 (the
    third named, for the second as mint) holds wrapped lamports if the mint is [native], and has no
    delegate and is not frozen *)
Definition opened (native : pubkey) (ms : list meta) (X : extras) : extras :=
  match map mt_key ms with
  | _ :: mint :: vault :: _ => <[vault := Extra None 0 false (mint =? native)]> X
  | _ => X
  end.

(** instructions/mod.rs 37-149 with that token program; [native] is spl_token::native_mint::id() *)
Definition full_process (e : env) (native : pubkey) (ts : Z) (ms : list meta) (i : ix) (L : ledger) (X : extras)
  : res (ledger * extras * option Z) :=
  match i with
  | FillVault r x =>
      let? (L1, src, dst, auth) := fill_part e ts ms L r x in
      let? (L2, X2) := full_transfer e ms L1 X src dst auth r in
      Ok (L2, X2, None)
  | Claim =>
      let? (L1, src, dst, auth, amount) := claim_part e ts ms L in
      if 0 <? amount then
        let? (L2, X2) := full_transfer e ms L1 X src dst auth amount in
        Ok (L2, X2, Some amount)
      else Ok (L1, X, Some amount)
  | InitializePool _ _ =>
      let? (L1, r) := process e ts ms i L in
      Ok (L1, opened native ms X, r)
  | _ =>
      let? (L1, r) := process e ts ms i L in
      Ok (L1, X, r)
  end.

(** as [exec] of Program.v *)
Definition full_exec (e : env) (native : pubkey) (ts : Z) (ms : list meta) (i : ix) (L : ledger) (X : extras)
  : res (ledger * extras * option Z) :=
  let? (L', X', r) := full_process e native ts ms i L X in
  check? readonly_ok ms L L' else EReadonly in
  Ok (L', X', r).
