(** Calls that give the program a longer account where it expects a mining.

    A mining is read from the first 1776 bytes of an account's data, and nothing checks the
    account type byte (mining.rs 41-53).  A pool account, which is longer and belongs to
    the program as well, can therefore be read as a mining.  Where the address is
    compared with the derived one (asserts.rs 112-120, utils.rs 121-142) this leads
    nowhere, since only the program can make accounts at such addresses and makes no
    longer ones.  Three accounts are not checked that way: the mining of Claim, the mining of
    CloseMining and the old delegate of ChangeDelegate.  Program.v leaves these calls
    out ([EWide]); here they are. *)
From stdpp Require Import gmap.
From Verif Require Import Base OMap State Ledger Program.

(** 2^32 *)
Definition U32 : Z := 4294967296.

(** the first 144 bytes of a pool (reward_pool.rs 424-456) read as a Mining
    (mining.rs 113-141): the three authorities are taken for pool, owner and mint, the 32
    bytes of reward_mint for index, share and unclaimed rewards, the low half of the index for
    stake_from_others *)
Definition as_mining (p : pool) : mining :=
  Mining (p_deposit_auth p) (p_distribute_auth p) (p_fill_auth p)
    (p_mint p mod U128) (p_mint p / U128 mod U64) (p_mint p / U128 / U64)
    (p_index p mod U64) (p_index p / U64 mod 256) (p_index p / U64 / 256 mod 256).

(** the pool after those bytes were written through the Mining; bump and data are not
    written (mining.rs 56-77, 170-172, reward_pool.rs 177-180) *)
Definition from_mining (p : pool) (m : mining) : pool :=
  Pool (m_pool m) (m_owner m) (m_mint m)
    (m_index m + U128 * (m_share m + U64 * m_unclaimed m))
    (m_sfo m + U64 * (p_index p / U64))
    (p_total p) (p_ends_at p) (p_avail p) (p_bump p) (p_type p).

(** bytes 144..147, the low half of total_share, read as the root of the mining's tree
    (dependency sokoban: 0 is the empty tree, slots are numbered from 1) *)
Definition root_of (p : pool) : Z := p_total p mod U32.

(** What the model does not say: the tree read from the pool's bytes when the root is
    one of the 50 slots, what the removals from it leave in bytes 144..1775, and
    the numbers in an account that is neither mining nor pool.  Everything is proved for
    every such [junk]. *)
Record junk := Junk {
  j_tree : wpool -> res tmap;
  j_left : wpool -> wmining -> pool * tmap;
  j_other : Z -> wmining }.

(** mining.rs 41-53 on any account of the program: a root beyond the 50 slots panics (index out
    of bounds) as soon as the tree is used.  In an account that is neither mining nor
    pool the keys and stake_from_others are zero: nothing ever writes keys there, and
    stake_from_others is only lowered. *)
Definition load_wide (j : junk) (d : adata) : res wmining :=
  match d with
  | DMining m => Ok m
  | DPool w =>
      if root_of (wp w) =? 0 then Ok (WMining (as_mining (wp w)) [])
      else if MINING_CAP <? root_of (wp w) then Err EPanic
      else let? t := j_tree j w in Ok (WMining (as_mining (wp w)) t)
  | _ =>
      if data_len d <? MINING_LEN then Err EPanic
      else
        let x := j_other j (data_len d) in
        Ok (WMining (Mining 0 0 0 (m_index (wm x)) (m_share (wm x)) (m_unclaimed (wm x)) 0
                       (m_bump (wm x)) (m_type (wm x))) (wm_diffs x))
  end.

(** writing through the borrow taken by [load_wide]: the history of a pool is beyond the
    first 1776 bytes *)
Definition store_wide (j : junk) (d : adata) (m : wmining) : adata :=
  match d with
  | DMining _ => DMining m
  | DPool w =>
      let h := from_mining (wp w) (wm m) in
      if root_of (wp w) =? 0 then DPool (WPool h (wp_diffs w) (wp_ci w))
      else
        let (t, ds) := j_left j w m in
        DPool (WPool (Pool (p_deposit_auth h) (p_distribute_auth h) (p_fill_auth h) (p_mint h) (p_index h)
                        (p_total t) (p_ends_at t) (p_avail t) (p_bump t) (p_type t)) ds (wp_ci w))
  | _ => DOther (data_len d)
  end.

(** claim.rs 13-84 *)
Definition wide_claim (j : junk) (e : env) (ts : Z) (ms : list meta) (L : ledger) : res (ledger * Z) :=
  let? (pool, it) := next_with_owner L (program_id e) ms in
  let? (mint, it) := next_with_owner L (spl_token_id e) it in
  let? (vault, it) := next_with_owner L (spl_token_id e) it in
  let? (mining, it) := next_with_owner L (program_id e) it in
  let? (owner, it) := next_signer ms it in
  let? (auth, it) := next_signer ms it in
  let? (dest, it) := next_with_owner L (spl_token_id e) it in
  let? (_, it) := next_with_key (spl_token_id e) it in
  let? t := load_token (a_data (acc L dest)) in
  let? _ := assert_account_key owner (t_owner t) in
  let? w := load_pool (a_data (acc L pool)) in
  let? _ := assert_account_key auth (p_deposit_auth (wp w)) in
  let? _ := distinct mining pool EPanic in
  let? m := load_wide j (a_data (acc L mining)) in
  let? _ := assert_account_key owner (m_owner (wm m)) in
  let? _ := assert_account_key pool (m_pool (wm m)) in
  let? vk := pda (cpa_vault e pool mint (p_bump (wp w))) in
  let? _ := assert_account_key vault vk in
  let? m1 := refresh ts (wp_ci w) m in
  let amount := m_unclaimed (wm m1) in
  let L1 := put_data L mining (store_wide j (a_data (acc L mining))
                                 (WMining (mining_claim (wm m1)) (wm_diffs m1))) in
  let? L2 := (if 0 <? amount then spl_transfer ms L1 vault dest auth amount else Ok L1) in
  Ok (L2, amount).

(** close_mining.rs 11-55; the whole data are zeroed, whatever their length *)
Definition wide_close (j : junk) (e : env) (ts : Z) (ms : list meta) (L : ledger) : res ledger :=
  let? (mining, it) := next_with_owner L (program_id e) ms in
  let? (owner, it) := next_signer ms it in
  let? (target, it) := next_with_owner L system_id it in
  let? (auth, it) := next_signer ms it in
  let? (pool, it) := next_with_owner L (program_id e) it in
  let? w := load_pool (a_data (acc L pool)) in
  let? _ := assert_account_key auth (p_deposit_auth (wp w)) in
  let? _ := distinct mining pool EPanic in
  let? m := load_wide j (a_data (acc L mining)) in
  let? _ := assert_account_key owner (m_owner (wm m)) in
  let? m1 := refresh ts (wp_ci w) m in
  check? negb (0 <? m_sfo (wm m1)) else StakeFromOthersMustBeZero in
  check? m_unclaimed (wm m1) =? 0 else RewardsMustBeClaimed in
  let? lam := safe_add64 (a_lamports (acc L target)) (a_lamports (acc L mining)) in
  let L1 := put_lamports L target lam in
  Ok (<[mining := Account 0 (a_owner (acc L mining)) (zeros (data_len (a_data (acc L mining))))]> L1).

(** the old delegate of ChangeDelegate, reward_pool.rs 173-183 *)
Definition wide_dlg (j : junk) (L : ledger) (dm mining pool : pubkey) : dlg :=
  if dm =? pool then Some (Err EPanic)
  else if mining =? dm then None else Some (load_wide j (a_data (acc L dm))).
(** writing it back *)
Definition put_wide (j : junk) (L : ledger) (k : pubkey) (d : option wmining) : ledger :=
  match d with None => L | Some m => put_data L k (store_wide j (a_data (acc L k)) m) end.

(** change_delegate.rs 8-60 *)
Definition wide_change (j : junk) (e : env) (ts : Z) (ms : list meta) (L : ledger)
    (amount : Z) (new_delegate : pubkey) : res ledger :=
  let? (pool, it) := next_with_owner L (program_id e) ms in
  let? (mining, it) := next_with_owner L (program_id e) it in
  let? (auth, it) := next_signer ms it in
  let? (owner, it) := next_signer ms it in
  let? (old_dm, it) := next_with_owner L (program_id e) it in
  let? (new_dm, it) := next_with_owner L (program_id e) it in
  check? negb (new_dm =? old_dm) else DelegatesAreTheSame in
  let? _ := distinct mining pool EPanic in
  let? (w, m) := assert_and_get e L owner mining pool auth in
  let? _ := verify_opt e L new_dm mining new_delegate pool in
  let? (w', m', od, nd) :=
    change_delegate ts w m (dlg_of L new_dm mining) (wide_dlg j L old_dm mining pool) amount in
  Ok (put_dlg (put_wide j (put_mining (put_pool L pool w') mining m') old_dm od) new_dm nd).

(** instructions/mod.rs 37-149, with the longer accounts *)
Definition wide_process (j : junk) (e : env) (ts : Z) (ms : list meta) (i : ix) (L : ledger)
  : res (ledger * option Z) :=
  match i with
  | Claim => let? (L', x) := wide_claim j e ts ms L in Ok (L', Some x)
  | CloseMining => no_ret (wide_close j e ts ms L)
  | ChangeDelegate a n => no_ret (wide_change j e ts ms L a n)
  | _ => process e ts ms i L
  end.
(** one instruction as executed by the runtime (dependency), as [exec] *)
Definition wide_exec (j : junk) (e : env) (ts : Z) (ms : list meta) (i : ix) (L : ledger)
  : res (ledger * option Z) :=
  let? (L', r) := wide_process j e ts ms i L in
  check? readonly_ok ms L L' else EReadonly in
  Ok (L', r).
