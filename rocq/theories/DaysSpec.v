(** Claim C91: the same budget handed out on other days. *)
From stdpp Require Import gmap.
From Verif Require Import Base State Spec EffectSpec Ledger Program LedgerLemmas LedgerSpec CodecLemmas History HistoryThms FreezeSpec CapSpec IncomeSpec DiarySpec LogSpec.

(** nobody's stake changes: the vault is filled, rewards are handed out, and the mining claims *)
Definition still (x : full_entry) : Prop :=
  let '(_, i, _, _) := x in match i with FillVault _ _ | DistributeRewards | Claim => True | _ => False end.
(** the same, when others may stake and withdraw *)
Definition stirring (x : full_entry) : Prop :=
  let '(_, i, _, l) := x in l = [] \/ match i with Claim => True | _ => False end.

(** tokens filled in during a log, and handed out between two states of the pool *)
Fixpoint filled_in (b : list full_entry) : Z :=
  match b with
  | [] => 0
  | (_, FillVault x _, _, _) :: r => x + filled_in r
  | _ :: r => filled_in r
  end.
Definition handed_out (v : wpool) (b : list full_entry) (v' : wpool) : Z := p_avail (wp v) + filled_in b - p_avail (wp v').

(** no bonus ends until the day of [ts] *)
Definition lasting (ts : Z) (t : sched) : Prop := dates (fun d => day_start ts < d) t.
