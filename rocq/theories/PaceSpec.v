(** Claim C98: how fast a budget is handed out. *)
From stdpp Require Import gmap.
From Verif Require Import Base State Spec EffectSpec Ledger Program LedgerLemmas LedgerSpec CodecLemmas History HistoryThms FreezeSpec CapSpec IncomeSpec DiarySpec LogSpec.

(** what is done with the budget: so many tokens to be handed out until a date are added, or a part is handed out *)
Inductive move := Fills (x until : Z) | HandsOut (ts : Z).
Definition moves (b : list entry) : list move :=
  flat_map (fun '(ts, i, _) => match i with FillVault x d => [Fills x d] | DistributeRewards => [HandsOut ts] | _ => [] end) b.
(** something is handed out on the day [d] *)
Definition on_day (d : Z) (l : list move) : Prop := exists ts, In (HandsOut ts) l /\ day_start ts = d.

(** By the first no more is filled in and no later dates are set than by the second, and it is handed out on all
    days on which it is by the second, at the same time of the day or later, and maybe on days on which it
    is not by the second ([D] is all that is done by the second). *)
Inductive quicker (D : list move) : list move -> list move -> Prop :=
| qk_nil : quicker D [] []
| qk_fill x d y c r q : x <= y -> day_start d <= day_start c -> quicker D r q -> quicker D (Fills x d :: r) (Fills y c :: q)
| qk_out t s r q : day_start t = day_start s -> s <= t -> quicker D r q -> quicker D (HandsOut t :: r) (HandsOut s :: q)
| qk_more t r q : ~ on_day (day_start t) D -> quicker D r q -> quicker D (HandsOut t :: r) q.
