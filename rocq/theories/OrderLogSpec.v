(** Claims C88 and C89 in orderly histories: logs of histories whose calls respect the conditions of C19. *)
From stdpp Require Import gmap.
From Verif Require Import Base State Spec Core Ledger Program LedgerLemmas LedgerSpec CodecLemmas History HistoryThms LedgerView FreezeSpec CapSpec IncomeSpec DiarySpec LogSpec.

(** as [full_log], with events that are orderly for the pool *)
Inductive orderly_log (e : env) (P k : pubkey) (D : Z -> op -> core -> Prop) : Z -> ledger -> Z -> ledger -> list full_entry -> Z -> Prop :=
| ol_nil now L : running e P L -> open e k L -> orderly_log e P k D now L now L [] 0
| ol_ix now L ts ms i L1 r now' L' b x :
    running e P L -> open e k L -> now <= ts -> is_u64 ts -> ix_in_range i -> exec e ts ms i L = Ok (L1, r) ->
    orderly_ix e P D now ts ms i L -> (places k ms i = [] \/ names ms (pool_position i) P = true) ->
    orderly_log e P k D ts L1 now' L' b x -> orderly_log e P k D now L now' L' (logged_with P k ts ms i ++ b) (takes k ms i r + x)
| ol_ext now L ts L1 now' L' b x :
    running e P L -> open e k L -> now <= ts -> is_u64 ts -> external e L L1 -> orderly_ext e P L L1 ->
    orderly_log e P k D ts L1 now' L' b x -> orderly_log e P k D now L now' L' b x.
