(** Bytes: the Borsh encoding of instructions and the layout of the account headers. *)
From Coq Require Import ZArith List.
From Verif Require Import Base OMap State Ledger Program.

(** bytes are numbers 0..255 *)
Definition bytes := list Z.

(** little-endian encoding of an unsigned number in [n] bytes (dependency borsh for u8, u64, Pubkey;
    the layout of repr(C) integers in mining.rs 113-141, reward_pool.rs 424-456) *)
Fixpoint le (n : nat) (x : Z) : bytes :=
  match n with O => [] | S n' => x mod 256 :: le n' (x / 256) end.

(** its inverse *)
Fixpoint unle (l : bytes) : Z :=
  match l with [] => 0 | b :: r => b + 256 * unle r end.

(** reading [n] bytes as a number; [None] when fewer are left (dependency borsh) *)
Definition dec_num (n : nat) (l : bytes) : option (Z * bytes) :=
  if (length l <? n)%nat then None else Some (unle (firstn n l), skipn n l).

(** the ? of a reader (dependency borsh) *)
Definition obind {A B} (x : option A) (f : A -> option B) : option B :=
  match x with Some a => f a | None => None end.
Notation "'let*' p ':=' x 'in' k" := (obind x (fun p => k))
  (at level 200, p pattern, x at level 100, k at level 200, right associativity).

(** sizes: u8, u64, u128, Pubkey *)
Definition enc_u8 (x : Z) : bytes := le 1 x.
(** u64, little endian *)
Definition enc_u64 (x : Z) : bytes := le 8 x.
(** u128, little endian *)
Definition enc_u128 (x : Z) : bytes := le 16 x.
(** Pubkey, 32 bytes *)
Definition enc_key (x : pubkey) : bytes := le 32 x.
(** reading a u8 *)
Definition dec_u8 := dec_num 1.
(** reading a u64 *)
Definition dec_u64 := dec_num 8.
(** reading a u128 *)
Definition dec_u128 := dec_num 16.
(** reading a Pubkey *)
Definition dec_key := dec_num 32.

(** borsh derive for LockupPeriod, utils.rs 232-245: variant index *)
Definition lockup_tag (p : lockup) : Z :=
  match p with LNone => 0 | LFlex => 1 | L3M => 2 | L6M => 3 | L1Y => 4 end.
(** utils.rs 232-245, one byte *)
Definition enc_lockup (p : lockup) : bytes := enc_u8 (lockup_tag p).
(** utils.rs 232-245: other bytes are refused *)
Definition dec_lockup (l : bytes) : option (lockup * bytes) :=
  let* (t, r) := dec_u8 l in
  match t with
  | 0 => Some (LNone, r) | 1 => Some (LFlex, r) | 2 => Some (L3M, r)
  | 3 => Some (L6M, r) | 4 => Some (L1Y, r) | _ => None
  end.

(** borsh for Option<u64> (dependency): tag 0 or 1 *)
Definition enc_opt (o : option Z) : bytes :=
  match o with None => enc_u8 0 | Some x => enc_u8 1 ++ enc_u64 x end.
(** borsh for Option<u64> (dependency): other tags are refused *)
Definition dec_opt (l : bytes) : option (option Z * bytes) :=
  let* (t, r) := dec_u8 l in
  match t with
  | 0 => Some (None, r)
  | 1 => let* (x, r) := dec_u64 r in Some (Some x, r)
  | _ => None
  end.

(** derive(BorshSerialize) for RewardsInstruction, instruction.rs 13-171: variant
    index, then the fields in order *)
Definition encode (i : ix) : bytes :=
  match i with
  | InitializePool f d => enc_u8 0 ++ enc_key f ++ enc_key d
  | FillVault r x => enc_u8 1 ++ enc_u64 r ++ enc_u64 x
  | InitializeMining o => enc_u8 2 ++ enc_key o
  | DepositMining a p o d => enc_u8 3 ++ enc_u64 a ++ enc_lockup p ++ enc_key o ++ enc_key d
  | WithdrawMining a o d => enc_u8 4 ++ enc_u64 a ++ enc_key o ++ enc_key d
  | Claim => enc_u8 5
  | ExtendStake op np s b a o d =>
      enc_u8 6 ++ enc_lockup op ++ enc_lockup np ++ enc_u64 s ++ enc_u64 b ++ enc_u64 a
               ++ enc_key o ++ enc_key d
  | DistributeRewards => enc_u8 7
  | CloseMining => enc_u8 8
  | ChangeDelegate a n => enc_u8 9 ++ enc_u64 a ++ enc_key n
  | Slash o n w dt => enc_u8 10 ++ enc_key o ++ enc_u64 n ++ enc_u64 w ++ enc_opt dt
  | DecreaseRewards o n => enc_u8 11 ++ enc_key o ++ enc_u64 n
  end.

(** derive(BorshDeserialize) for RewardsInstruction, instruction.rs 13-171 *)
Definition parse (l : bytes) : option (ix * bytes) :=
  let* (t, r) := dec_u8 l in
  match t with
  | 0 => let* (f, r) := dec_key r in let* (d, r) := dec_key r in Some (InitializePool f d, r)
  | 1 => let* (a, r) := dec_u64 r in let* (x, r) := dec_u64 r in Some (FillVault a x, r)
  | 2 => let* (o, r) := dec_key r in Some (InitializeMining o, r)
  | 3 => let* (a, r) := dec_u64 r in let* (p, r) := dec_lockup r in
         let* (o, r) := dec_key r in let* (d, r) := dec_key r in Some (DepositMining a p o d, r)
  | 4 => let* (a, r) := dec_u64 r in let* (o, r) := dec_key r in let* (d, r) := dec_key r in
         Some (WithdrawMining a o d, r)
  | 5 => Some (Claim, r)
  | 6 => let* (op, r) := dec_lockup r in let* (np, r) := dec_lockup r in
         let* (s, r) := dec_u64 r in let* (b, r) := dec_u64 r in let* (a, r) := dec_u64 r in
         let* (o, r) := dec_key r in let* (d, r) := dec_key r in
         Some (ExtendStake op np s b a o d, r)
  | 7 => Some (DistributeRewards, r)
  | 8 => Some (CloseMining, r)
  | 9 => let* (a, r) := dec_u64 r in let* (n, r) := dec_key r in Some (ChangeDelegate a n, r)
  | 10 => let* (o, r) := dec_key r in let* (n, r) := dec_u64 r in let* (w, r) := dec_u64 r in
          let* (dt, r) := dec_opt r in Some (Slash o n w dt, r)
  | 11 => let* (o, r) := dec_key r in let* (n, r) := dec_u64 r in Some (DecreaseRewards o n, r)
  | _ => None
  end.

(** RewardsInstruction::try_from_slice (dependency borsh): all bytes must be
    consumed; called at instructions/mod.rs 35 *)
Definition decode (l : bytes) : option ix :=
  let* (i, r) := parse l in
  match r with [] => Some i | _ => None end.

(** process_instruction on raw data: instructions/mod.rs 30-149, executed by the runtime *)
Definition exec_bytes (e : env) (ts : Z) (ms : list meta) (data : bytes) (L : ledger)
  : res (ledger * option Z) :=
  match decode data with
  | None => Err EBorsh
  | Some i => exec e ts ms i L
  end.

(** * Account headers *)

(** repr(C) layout of Mining, mining.rs 113-141: three keys at 0, 32, 64, the u128
    at 96, three u64 at 112, 120, 128, bump at 136, seven data bytes at 137
    (byte 0 the account type); 144 bytes, no padding.  Data bytes 1..6 are never
    written by the program (mining.rs 153-162). *)
Definition enc_mining_header (m : mining) : bytes :=
  enc_key (m_pool m) ++ enc_key (m_owner m) ++ enc_key (m_mint m) ++ enc_u128 (m_index m) ++
  enc_u64 (m_share m) ++ enc_u64 (m_unclaimed m) ++ enc_u64 (m_sfo m) ++
  enc_u8 (m_bump m) ++ enc_u8 (m_type m) ++ le 6 0.

(** reading the layout of mining.rs 113-141 (bytemuck, mining.rs 44-46) *)
Definition dec_mining_header (l : bytes) : option (mining * bytes) :=
  let* (p, r) := dec_key l in let* (o, r) := dec_key r in let* (mi, r) := dec_key r in
  let* (i, r) := dec_u128 r in let* (s, r) := dec_u64 r in let* (u, r) := dec_u64 r in
  let* (f, r) := dec_u64 r in let* (b, r) := dec_u8 r in let* (t, r) := dec_u8 r in
  let* (_, r) := dec_num 6 r in
  Some (Mining p o mi i s u f b t, r).

(** repr(C) layout of RewardPool, reward_pool.rs 424-456: four keys at 0, 32, 64, 96, the
    u128 at 128, three u64 at 144, 152, 160, bump at 168, data at 169; 176 bytes. *)
Definition enc_pool_header (p : pool) : bytes :=
  enc_key (p_deposit_auth p) ++ enc_key (p_distribute_auth p) ++ enc_key (p_fill_auth p) ++
  enc_key (p_mint p) ++ enc_u128 (p_index p) ++ enc_u64 (p_total p) ++ enc_u64 (p_ends_at p) ++
  enc_u64 (p_avail p) ++ enc_u8 (p_bump p) ++ enc_u8 (p_type p) ++ le 6 0.

(** reading the layout of reward_pool.rs 424-456 (bytemuck, reward_pool.rs 71-90) *)
Definition dec_pool_header (l : bytes) : option (pool * bytes) :=
  let* (a, r) := dec_key l in let* (b, r) := dec_key r in let* (c, r) := dec_key r in
  let* (m, r) := dec_key r in let* (i, r) := dec_u128 r in let* (t, r) := dec_u64 r in
  let* (e, r) := dec_u64 r in let* (v, r) := dec_u64 r in let* (bu, r) := dec_u8 r in
  let* (ty, r) := dec_u8 r in let* (_, r) := dec_num 6 r in
  Some (Pool a b c m i t e v bu ty, r).

(** size of a sokoban RedBlackTree (dependency): 32 bytes of header and allocator, and per
    slot four u32 registers, the key and the value, aligned to the value *)
Definition tree_len (slot : Z) (cap : Z) : Z := 32 + slot * cap.
(** mining.rs 38-39 and state/mod.rs 19-21: u64 to u64 *)
Definition mining_account_len : Z := 144 + tree_len 32 MINING_CAP.
(** reward_pool.rs 69: u64 to u64, then u64 to u128 (16-byte aligned) *)
Definition pool_account_len : Z := 176 + tree_len 32 POOL_CAP + tree_len 48 HISTORY_CAP.
(** the part of it used on chain, where u128 is aligned to eight bytes and a slot of the
    history (state/mod.rs 19) takes 40 *)
Definition pool_used_len : Z := 176 + tree_len 32 POOL_CAP + tree_len 40 HISTORY_CAP.
