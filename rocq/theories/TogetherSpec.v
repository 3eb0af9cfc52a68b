(** Claim C96: three histories with the same stakes; the rewards of the third are those of the first two together. *)
From stdpp Require Import gmap.
From Verif Require Import Base State Spec EffectSpec Ledger Program LedgerLemmas LedgerSpec CodecLemmas History HistoryThms FreezeSpec CapSpec IncomeSpec DiarySpec LogSpec CompareSpec ScaleSpec RichSpec.

(** All three calls do the same with the same stakes, and the third fills in what the first two do together. *)
Definition joint (i j h : ix) : Prop :=
  match i, j, h with
  | FillVault x d, FillVault y d', FillVault z d'' => z = x + y /\ d' = d /\ d'' = d
  | _, _, _ => times 1 i j /\ times 1 i h
  end.
Definition together (x y z : full_entry) : Prop :=
  let '(ts, i, b, l) := x in let '(t2, j, b2, l2) := y in let '(t3, h, b3, l3) := z in
  (t2 = ts /\ t3 = ts) /\ (b2 = b /\ b3 = b) /\ (l2 = l /\ l3 = l) /\ joint i j h.
