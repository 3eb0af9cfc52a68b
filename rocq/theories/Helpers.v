(** The assertion helpers and account loaders that no instruction uses, transcribed. *)
From stdpp Require Import gmap.
From Verif Require Import Base State Ledger.

(** asserts.rs 13-19 *)
Definition assert_signer (ms : list meta) (k : pubkey) : res unit :=
  ensure (is_signer ms k) EMissingSignature.

(** asserts.rs 22-34 *)
Definition assert_owned_by (L : ledger) (k owner : pubkey) : res unit :=
  ensure (a_owner (acc L k) =? owner) InvalidAccountOwner.

(** asserts.rs 51-60.  ProgramError::AccountNotRentExempt, which nothing else returns, is
    [false]; Rent::is_exempt (dependency) compares with Rent::minimum_balance. *)
Definition assert_rent_exempt (e : env) (L : ledger) (k : pubkey) : bool :=
  rent_min e (data_len (a_data (acc L k))) <=? a_lamports (acc L k).

(** asserts.rs 62-73 *)
Definition assert_pubkey_eq (given expected : pubkey) : res unit :=
  ensure (given =? expected) EInvalidArgument.

(** asserts.rs 75-86 *)
Definition assert_account_len (L : ledger) (k : pubkey) (len : Z) : res unit :=
  ensure (data_len (a_data (acc L k)) =? len) EInvalidArgument.

(** asserts.rs 88-99 *)
Definition assert_account_owner (L : ledger) (k owner : pubkey) : res unit :=
  ensure (a_owner (acc L k) =? owner) EInvalidArgument.

(** utils.rs 218-223 *)
Definition next_unchecked (it : list meta) : res (pubkey * list meta) :=
  match it with
  | [] => Err ENotEnoughKeys
  | m :: r => Ok (mt_key m, r)
  end.

(** utils.rs 226-229; the size hint of a slice iterator is its length *)
Definition has_more (it : list meta) : bool := 0 <? Z.of_nat (length it).
