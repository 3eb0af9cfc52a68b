(** The discipline of Core.v kept from records of the calls alone (claim C76): nothing here
    looks into an account of the program. *)
From stdpp Require Import gmap.
From Verif Require Import Base State Spec Core Ledger Program LedgerLemmas LedgerSpec CodecLemmas History LedgerView.

(** What is written down for each mining of the pool: the tokens put in and not taken out
    again, the expiry dates asked for since it was opened, and whether it has been brought
    up to date since the last distribution. *)
Record books := Books {
  b_stake : pubkey -> Z;
  b_dates : pubkey -> list Z;
  b_seen : pubkey -> bool }.
Definition no_books : books := Books (fun _ => 0) (fun _ => []) (fun _ => false).

Definition upd {A} (f : pubkey -> A) (k : pubkey) (v : A) : pubkey -> A := fun x => if x =? k then v else f x.

(** not the first second of a UTC day *)
Definition later_second (ts : Z) : bool := negb (ts mod 86400 =? 0).

(** the minings of a call are up to date afterwards; a call in the first second of a day is not relied on *)
Definition see (ts : Z) (ks : list (option pubkey)) (f : pubkey -> bool) : pubkey -> bool :=
  fun x => f x || (later_second ts && existsb (fun k => match k with Some y => y =? x | None => false end) ks).

(** what is written down after a call *)
Definition note (ts : Z) (o : op) (b : books) : books :=
  match o with
  | ODeposit k a p d =>
      Books (upd (b_stake b) k (b_stake b k + a)) (upd (b_dates b) k (expiry p ts :: b_dates b k)) (see ts [Some k; d] (b_seen b))
  | OWithdraw k a d => Books (upd (b_stake b) k (b_stake b k - a)) (b_dates b) (see ts [Some k; d] (b_seen b))
  | OExtend k _ p _ _ a d =>
      Books (upd (b_stake b) k (b_stake b k + a)) (upd (b_dates b) k (expiry p ts :: b_dates b k)) (see ts [Some k; d] (b_seen b))
  | OChange k od nd _ => Books (b_stake b) (b_dates b) (see ts [Some k; od; nd] (b_seen b))
  | OSlash k n w None => Books (upd (b_stake b) k (b_stake b k - w)) (b_dates b) (see ts [Some k] (b_seen b))
  | OSlash k n w (Some _) => Books (upd (b_stake b) k (b_stake b k - n)) (b_dates b) (see ts [Some k] (b_seen b))
  | ODecrease k n => Books (upd (b_stake b) k (b_stake b k - n)) (b_dates b) (b_seen b)
  | OClaim k => Books (b_stake b) (b_dates b) (see ts [Some k] (b_seen b))
  | ODistribute => Books (b_stake b) (b_dates b) (fun _ => false)
  | OInit k _ _ _ | OClose k => Books (upd (b_stake b) k 0) (upd (b_dates b) k []) (upd (b_seen b) k false)
  | OFill _ _ _ | ODonate _ => b
  end.

(** fewer than 50 of the dates, without repetitions, are to come and are not [d] *)
Definition few (ts d : Z) (l : list Z) : Prop :=
  Z.of_nat (length (List.nodup Z.eq_dec (List.filter (fun x => (day_start ts <? x) && negb (x =? d)) l))) < 50.
(** the delegate, if it is another mining, has been brought up to date *)
Definition seen (b : books) (d : option pubkey) : Prop := match d with Some x => b_seen b x = true | None => True end.

(** what is checked before a call *)
Definition kept (ts : Z) (o : op) (b : books) : Prop :=
  match o with
  | ODeposit k _ p d => later_second ts = true /\ seen b d /\ few ts (expiry p ts) (b_dates b k)
  | OWithdraw k a _ => a <= b_stake b k
  | OExtend k old p start base _ _ =>
      later_second ts = true /\ (old = LFlex \/ expiry old start <= ts) /\ base <= b_stake b k /\ few ts (expiry p ts) (b_dates b k)
  | OChange _ _ d _ => later_second ts = true /\ seen b d
  | OSlash k _ w None => w <= b_stake b k
  | OSlash k n _ (Some _) => n <= b_stake b k
  | OFill _ _ from_vault => from_vault = false
  | _ => True
  end.

(** the check and the note for an instruction that is about pool [P] *)
Definition kept_ix (e : env) (P : pubkey) (ts : Z) (ms : list meta) (i : ix) (b : books) : Prop :=
  match op_of e P ms i with Some o => kept ts o b | None => True end.
Definition note_ix (e : env) (P : pubkey) (ts : Z) (ms : list meta) (i : ix) (b : books) : books :=
  match op_of e P ms i with Some o => note ts o b | None => b end.

(** histories during which the books are kept; the other conditions are those of orderly
    histories (LedgerView.v) without the discipline *)
Inductive kept_run (e : env) (P : pubkey) : Z -> ledger -> books -> Z -> ledger -> books -> Prop :=
| kr_nil now L b : kept_run e P now L b now L b
| kr_ix now L b ts ms i L1 r now' L' b' :
    now <= ts -> is_u64 ts -> ix_in_range i -> exec e ts ms i L = Ok (L1, r) ->
    orderly_ix e P (fun _ _ _ => True) now ts ms i L -> kept_ix e P ts ms i b ->
    kept_run e P ts L1 (note_ix e P ts ms i b) now' L' b' -> kept_run e P now L b now' L' b'
| kr_ext now L b ts L1 now' L' b' :
    now <= ts -> is_u64 ts -> external e L L1 -> orderly_ext e P L L1 ->
    kept_run e P ts L1 b now' L' b' -> kept_run e P now L b now' L' b'.

(** a ledger reached while the books were kept from the beginning *)
Definition kept_books (e : env) (P : pubkey) (now : Z) (L : ledger) (b : books) : Prop :=
  exists L0, genesis e L0 /\ (forall k, derived e k -> owner_of L0 k = system_id) /\
    kept_run e P 0 L0 no_books now L b.
