(** Vocabulary for statements about the full token program (Spl.v). *)
From stdpp Require Import gmap.
From Verif Require Import Base OMap State Ledger Program LedgerLemmas LedgerSpec CodecLemmas History LedgerView Spl.

(** where an instruction that moves tokens lists the account they come from, the one they go to and
    the one that signs for them (instruction.rs 33-38, 85-92) *)
Definition token_moves (i : ix) : option (nat * nat * nat) :=
  match i with
  | FillVault _ _ => Some (4, 2, 3)%nat
  | Claim => Some (2, 6, 5)%nat
  | _ => None
  end.
Definition moves_at (ms : list meta) (i : ix) (s d a : pubkey) : Prop :=
  exists x y z, token_moves i = Some (x, y, z) /\ account_at ms x s /\ account_at ms y d /\ account_at ms z a.
(** how many tokens it moves, given what it returns *)
Definition moved (i : ix) (r : option Z) : Z :=
  match i, r with
  | FillVault n _, _ => n
  | Claim, Some n => n
  | _, _ => 0
  end.

(** [L1] is [L] with the token account [k] in the name of [o] *)
Definition in_name_of (e : env) (L : ledger) (k o : pubkey) (L1 : ledger) : Prop :=
  exists t, is_token e L k t /\
    acc L1 k = Account (a_lamports (acc L k)) (a_owner (acc L k)) (DToken (Token (t_mint t) o (t_amount t))) /\
    forall q, q <> k -> acc L1 q = acc L q.

(** The token program agrees to move [n] tokens from [s] to [d] at the word of [a]: neither account
    is frozen, [a] is the delegate of [s] with a sufficient allowance or else its owner, [a] is no
    multisig account, and wrapped lamports are there and fit. *)
Record agrees (e : env) (L : ledger) (X : extras) (s d a : pubkey) (n : Z) : Prop := {
  ag_source : x_frozen (extra_at X s) = false;
  ag_dest : x_frozen (extra_at X d) = false;
  ag_delegate : x_delegate (extra_at X s) = Some a -> n <= x_allowance (extra_at X s);
  ag_owner : x_delegate (extra_at X s) <> Some a -> exists t, data_of L s = DToken t /\ t_owner t = a;
  ag_single : ~ (owner_of L a = spl_token_id e /\ data_len (data_of L a) = 355);
  ag_native : x_native (extra_at X s) = true -> s <> d ->
    n <= a_lamports (acc L s) /\ a_lamports (acc L d) + n < 18446744073709551616 }.

(** the wrapped lamports that go with the tokens *)
Definition wrapped (X : extras) (s d : pubkey) (n : Z) (q : pubkey) : Z :=
  if x_native (extra_at X s) && negb (s =? d) then
    if q =? s then - n else if q =? d then n else 0
  else 0.
(** the token account with the owner it has in [L] *)
Definition same_holder (L : ledger) (q : pubkey) (d : adata) : adata :=
  match d, data_of L q with
  | DToken t, DToken t0 => DToken (Token (t_mint t) (t_owner t0) (t_amount t))
  | _, _ => d
  end.
(** [L'] is [L2] with the account [s] in the name of its holder in [L] and wrapped lamports moved
    as well *)
Definition settled (L : ledger) (X : extras) (s d : pubkey) (n : Z) (L2 L' : ledger) : Prop :=
  forall q, acc L' q = Account (a_lamports (acc L2 q) + wrapped X s d n q) (a_owner (acc L2 q))
    (if q =? s then same_holder L s (a_data (acc L2 q)) else a_data (acc L2 q)).
(** the allowance is used, nothing else changes *)
Definition allowance_used (X : extras) (s d a : pubkey) (n : Z) (X' : extras) : Prop :=
  forall q, extra_at X' q =
    if (q =? s) && negb (s =? d) && bool_decide (x_delegate (extra_at X s) = Some a) then
      Extra (if x_allowance (extra_at X s) =? n then None else Some a) (x_allowance (extra_at X s) - n)
        (x_frozen (extra_at X s)) (x_native (extra_at X s))
    else extra_at X q.

(** nothing special about a token account: not frozen, [a] is not its delegate, no wrapped lamports *)
Definition plain_token (X : extras) (k a : pubkey) : Prop :=
  x_frozen (extra_at X k) = false /\ x_delegate (extra_at X k) <> Some a /\ x_native (extra_at X k) = false.

(** ** Histories *)

(** As in History.v, with the full token program; what happens outside may change the extra fields
    in any way.  A claim that names the vault itself as destination is made only while the deposit
    authority owns the vault. *)
Inductive full_run (e : env) (native : pubkey)
  : Z -> ledger -> extras -> list event -> Z -> ledger -> extras -> Prop :=
| full_nil now L X : full_run e native now L X [] now L X
| full_ix now L X ts ms i L1 X1 r evs now' L' X' :
    now <= ts -> is_u64 ts -> ix_in_range i -> full_exec e native ts ms i L X = Ok (L1, X1, r) ->
    (forall s a t, i = Claim -> moves_at ms i s s a -> data_of L s = DToken t -> t_owner t = a) ->
    full_run e native ts L1 X1 evs now' L' X' ->
    full_run e native now L X (EvIx ts ms i :: evs) now' L' X'
| full_ext now L X ts L1 X1 evs now' L' X' :
    now <= ts -> is_u64 ts -> external e L L1 ->
    full_run e native ts L1 X1 evs now' L' X' ->
    full_run e native now L X (EvExt ts :: evs) now' L' X'.

(** the instructions of a history, in order *)
Definition calls_in (evs : list event) : list event :=
  List.filter (fun ev => match ev with EvIx _ _ _ => true | EvExt _ => false end) evs.

(** Orderly histories (LedgerView.v) with the full token program.  Besides, a vault of [P] is not
    used as the source of a fill by a delegate. *)
Inductive full_orderly_run (e : env) (native : pubkey) (P : pubkey) (D : Z -> Core.op -> Core.core -> Prop)
  : Z -> ledger -> extras -> Z -> ledger -> extras -> Prop :=
| fo_nil now L X : full_orderly_run e native P D now L X now L X
| fo_ix now L X ts ms i L1 X1 r now' L' X' :
    now <= ts -> is_u64 ts -> ix_in_range i -> full_exec e native ts ms i L X = Ok (L1, X1, r) ->
    orderly_ix e P D now ts ms i L ->
    (forall n x s d a m b, i = FillVault n x -> moves_at ms i s d a -> cpa_vault e P m b = Some s ->
       exists t, data_of L s = DToken t /\ t_owner t = a) ->
    (forall s a t, i = Claim -> moves_at ms i s s a -> data_of L s = DToken t -> t_owner t = a) ->
    full_orderly_run e native P D ts L1 X1 now' L' X' -> full_orderly_run e native P D now L X now' L' X'
| fo_ext now L X ts L1 X1 now' L' X' :
    now <= ts -> is_u64 ts -> external e L L1 -> orderly_ext e P L L1 ->
    full_orderly_run e native P D ts L1 X1 now' L' X' -> full_orderly_run e native P D now L X now' L' X'.
Definition full_orderly (e : env) (native P : pubkey) (D : Z -> Core.op -> Core.core -> Prop) (now : Z) (L : ledger) (X : extras) : Prop :=
  exists L0 X0, genesis e L0 /\ (forall k, derived e k -> owner_of L0 k = system_id) /\
    full_orderly_run e native P D 0 L0 X0 now L X.
