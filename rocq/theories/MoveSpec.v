(** Vocabulary for moving a chain to other dates and other keys (claims C64, C65): the same
    accounts, instructions and histories, with [d] seconds added to every date and every key
    replaced by [f] of it.  Nothing here transcribes /repo. *)
From stdpp Require Import gmap.
From Verif Require Import Base OMap State Ledger Program CodecLemmas History.

Section move.
Context (f : pubkey -> pubkey) (d : Z).

Definition move_sched (t : tmap) : tmap := map (fun kv => (fst kv + d, snd kv)) t.
(** the end of distribution; zero before the first FillVault *)
Definition move_end (x : Z) : Z := if 0 <? x then x + d else x.
Definition move_pool (p : pool) : pool :=
  Pool (f (p_deposit_auth p)) (f (p_distribute_auth p)) (f (p_fill_auth p)) (f (p_mint p)) (p_index p) (p_total p)
    (move_end (p_ends_at p)) (p_avail p) (p_bump p) (p_type p).
Definition move_wpool (w : wpool) : wpool := WPool (move_pool (wp w)) (move_sched (wp_diffs w)) (move_sched (wp_ci w)).
Definition move_mining (m : mining) : mining :=
  Mining (f (m_pool m)) (f (m_owner m)) (f (m_mint m)) (m_index m) (m_share m) (m_unclaimed m) (m_sfo m) (m_bump m) (m_type m).
Definition move_wmining (m : wmining) : wmining := WMining (move_mining (wm m)) (move_sched (wm_diffs m)).
Definition move_token (t : token) : token := Token (f (t_mint t)) (f (t_owner t)) (t_amount t).
Definition move_data (x : adata) : adata :=
  match x with
  | DPool w => DPool (move_wpool w)
  | DMining m => DMining (move_wmining m)
  | DToken t => DToken (move_token t)
  | _ => x
  end.
Definition move_account (a : account) : account := Account (a_lamports a) (f (a_owner a)) (move_data (a_data a)).
Definition move_ledger (L : ledger) : ledger := kmap f (move_account <$> L).
Definition move_meta (m : meta) : meta := Meta (f (mt_key m)) (mt_signer m) (mt_writable m).
Definition move_ix (i : ix) : ix :=
  match i with
  | InitializePool a b => InitializePool (f a) (f b)
  | FillVault r x => FillVault r (x + d)
  | InitializeMining o => InitializeMining (f o)
  | DepositMining a p o g => DepositMining a p (f o) (f g)
  | WithdrawMining a o g => WithdrawMining a (f o) (f g)
  | ExtendStake p q s b a o g => ExtendStake p q (s + d) b a (f o) (f g)
  | ChangeDelegate a n => ChangeDelegate a (f n)
  | Slash o n w x => Slash (f o) n w (option_map (fun y => y + d) x)
  | DecreaseRewards o n => DecreaseRewards (f o) n
  | Claim => Claim | DistributeRewards => DistributeRewards | CloseMining => CloseMining
  end.
(** what an instruction answers: the same error, or the moved ledger and the same number *)
Definition move_answer (r : res (ledger * option Z)) : res (ledger * option Z) :=
  match r with Ok (L, x) => Ok (move_ledger L, x) | Err er => Err er end.
Definition move_event (ev : event) : event :=
  match ev with
  | EvIx ts ms i => EvIx (ts + d) (map move_meta ms) (move_ix i)
  | EvExt ts => EvExt (ts + d)
  end.

(** the program and the token program have moved to their new keys, and addresses are derived
    for the new keys as they were for the old ones *)
Record env_moved (e e' : env) : Prop := {
  em_program : program_id e' = f (program_id e);
  em_token : spl_token_id e' = f (spl_token_id e);
  em_rent : rent_id e' = f (rent_id e);
  em_find_mining : forall o p, find_mining e' (f o) (f p) = (f (fst (find_mining e o p)), snd (find_mining e o p));
  em_cpa_mining : forall o p b, cpa_mining e' (f o) (f p) b = option_map f (cpa_mining e o p b);
  em_find_vault : forall p m, find_vault e' (f p) (f m) = (f (fst (find_vault e p m)), snd (find_vault e p m));
  em_cpa_vault : forall p m b, cpa_vault e' (f p) (f m) b = option_map f (cpa_vault e p m b);
  em_rent_min : forall n, rent_min e' n = rent_min e n }.

(** a date from which the longest lock still ends within 64 bits after the move *)
Definition movable (x : Z) : Prop := x + d + 365 * 86400 < 18446744073709551616.
(** dates are not moved at all, or the clock is past the first day of 1970, and it and the dates in
    the instruction can be moved *)
Definition ix_movable (ts : Z) (i : ix) : Prop :=
  d = 0 \/
  86400 <= ts /\ movable ts /\
  match i with
  | FillVault _ x => x + d < 18446744073709551616
  | ExtendStake _ _ s _ _ _ _ => movable s
  | Slash _ _ _ (Some x) => x + d < 18446744073709551616
  | _ => True
  end.
Definition event_movable (ev : event) : Prop :=
  match ev with EvIx ts _ i => ix_movable ts i | EvExt ts => ts + d < 18446744073709551616 end.
End move.

(** whole days *)
Definition whole_days (d : Z) : Prop := 0 <= d /\ d mod 86400 = 0.
(** different keys stay different, and the system program keeps its key *)
Record renaming (f : pubkey -> pubkey) : Prop := {
  rn_inj : forall a b, f a = f b -> a = b;
  rn_system : f 0 = 0;
  rn_key : forall a, is_key a -> is_key (f a) }.
(** no key is replaced *)
Definition same (k : pubkey) : pubkey := k.
(** the environment after renaming by [f], whose inverse is [g] *)
Definition renamed_env (f g : pubkey -> pubkey) (e : env) : env := {|
  program_id := f (program_id e); spl_token_id := f (spl_token_id e); rent_id := f (rent_id e);
  find_mining := fun o p => let (k, b) := find_mining e (g o) (g p) in (f k, b);
  cpa_mining := fun o p b => option_map f (cpa_mining e (g o) (g p) b);
  find_vault := fun p m => let (k, b) := find_vault e (g p) (g m) in (f k, b);
  cpa_vault := fun p m b => option_map f (cpa_vault e (g p) (g m) b);
  rent_min := rent_min e |}.
