(** Histories of the whole ledger: instructions of this program, by anybody, with
    any accounts, interleaved with whatever else happens on the chain. *)
From stdpp Require Import gmap.
From Verif Require Import Base OMap State Ledger Program CodecLemmas WfLemmas.

(** What is assumed of the environment.  [find_program_address] (dependency) tries bumps
    255..1 and returns an address made by [create_program_address]; program ids differ. *)
Record env_ok (e : env) : Prop := {
  eo_sys : program_id e <> system_id;
  eo_tok : program_id e <> spl_token_id e;
  eo_toksys : spl_token_id e <> system_id;
  eo_mining : forall o p k b, find_mining e o p = (k, b) -> cpa_mining e o p b = Some k /\ 0 < b < 256;
  eo_vault : forall p m k b, find_vault e p m = (k, b) -> cpa_vault e p m b = Some k /\ 0 < b < 256;
  eo_rent : forall n, 0 <= rent_min e n }.

(** collision resistance of derived addresses *)
Record env_inj (e : env) : Prop := {
  ei_mining : forall o p b o' p' b' k,
    cpa_mining e o p b = Some k -> cpa_mining e o' p' b' = Some k -> o = o' /\ p = p' /\ b = b';
  ei_vault : forall p m b p' m' b' k,
    cpa_vault e p m b = Some k -> cpa_vault e p' m' b' = Some k -> p = p' /\ m = m' /\ b = b';
  ei_disjoint : forall o p b p' m' b' k,
    cpa_mining e o p b = Some k -> cpa_vault e p' m' b' = Some k -> False }.

(** numbers stored in an account are in range whatever program owns it *)
Definition account_bytes_ok (a : account) : Prop :=
  is_u64 (a_lamports a) /\ match a_data a with DToken t => is_u64 (t_amount t) | _ => True end.

(** What transactions that do not involve this program, and the runtime, may do to
    one account.  An account of this program keeps data and owner and loses no
    lamports, or disappears if it holds none.  Another account may become this
    program's only with zeroed data. *)
Definition external_account (e : env) (a a' : account) : Prop :=
  account_bytes_ok a' /\
  (a_owner a = program_id e ->
     (a_owner a' = a_owner a /\ a_data a' = a_data a /\ a_lamports a <= a_lamports a') \/
     (a_lamports a = 0 /\ a' = empty_account)) /\
  (a_owner a <> program_id e -> a_owner a' = program_id e -> all_zero (a_data a') = true).

(** the same for all accounts at once *)
Definition external (e : env) (L L' : ledger) : Prop :=
  forall k, external_account e (acc L k) (acc L' k).

(** one event, at a clock time *)
Inductive event :=
| EvIx (ts : Z) (ms : list meta) (i : ix)
| EvExt (ts : Z).

(** Clock::unix_timestamp at the event, utils.rs 288-292 *)
Definition time_of (ev : event) : Z := match ev with EvIx ts _ _ => ts | EvExt ts => ts end.

(** [step e now L ev L']: the event happens at a time not before [now].  Failed
    instructions change nothing and need no event. *)
Inductive step (e : env) (now : Z) (L : ledger) : event -> ledger -> Prop :=
| step_ix ts ms i L' r :
    now <= ts -> is_u64 ts -> ix_in_range i -> exec e ts ms i L = Ok (L', r) ->
    step e now L (EvIx ts ms i) L'
| step_ext ts L' :
    now <= ts -> is_u64 ts -> external e L L' -> step e now L (EvExt ts) L'.

(** histories; the clock after an event is the event's time *)
Inductive run (e : env) : Z -> ledger -> list event -> Z -> ledger -> Prop :=
| run_nil now L : run e now L [] now L
| run_cons now L ev L1 evs now' L' :
    step e now L ev L1 -> run e (time_of ev) L1 evs now' L' ->
    run e now L (ev :: evs) now' L'.

(** before the program was ever used: it owns only zeroed accounts *)
Definition genesis (e : env) (L : ledger) : Prop :=
  forall k, account_bytes_ok (acc L k) /\
    (a_owner (acc L k) = program_id e -> all_zero (a_data (acc L k)) = true).

(** everything stored by the program is in range and well formed *)
Definition account_ok (e : env) (now : Z) (a : account) : Prop :=
  account_bytes_ok a /\
  (a_owner a = program_id e ->
   match a_data a with DPool w => pool_wf now w | DMining m => mining_wf m | _ => True end).
(** the same for all accounts *)
Definition ledger_ok (e : env) (now : Z) (L : ledger) : Prop := forall k, account_ok e now (acc L k).
