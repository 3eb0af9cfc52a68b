(** Claim C90: claiming at other times, more often or never. *)
From stdpp Require Import gmap.
From Verif Require Import Base State Spec EffectSpec Ledger Program LedgerLemmas LedgerSpec CodecLemmas History HistoryThms FreezeSpec CapSpec IncomeSpec DiarySpec LogSpec.

(** the mining's own claims among the entries of a log, and the rest of it *)
Definition claims (x : full_entry) : bool := let '(_, i, _, _) := x in match i with Claim => true | _ => false end.
Definition but_claims (b : list full_entry) : list full_entry := filter (fun x => negb (claims x)) b.

(** The call does not touch the mining, or works on it as the staker's own: not as somebody else's
    delegate, and not as a decrease of its rewards. *)
Definition own_or_none (x : full_entry) : Prop :=
  let '(_, i, _, l) := x in
  match l, i with
  | [], _ => True
  | _, DecreaseRewards _ _ => False
  | _, (Claim | Slash _ _ _ _) => True
  | _, _ => In 1%nat l
  end.
(** the same, with decreases of rewards; and with the mining also as somebody's delegate *)
Definition own_or_penalty (x : full_entry) : Prop :=
  let '(_, i, _, l) := x in
  match l, i with
  | [], _ => True
  | _, (Claim | Slash _ _ _ _ | DecreaseRewards _ _) => True
  | _, _ => In 1%nat l
  end.
Definition own_or_delegate (x : full_entry) : Prop :=
  let '(_, i, _, l) := x in match l, i with _ :: _, DecreaseRewards _ _ => False | _, _ => True end.
