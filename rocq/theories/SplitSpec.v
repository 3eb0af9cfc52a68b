(** Vocabulary for calls made in two parts (claim C61), in terms of Spec.v, EffectSpec.v and
    LedgerSpec.v only. *)
From Verif Require Import Base State Spec EffectSpec Ledger Program LedgerLemmas LedgerSpec.

(** the first two calls ask in two parts for what the third asks for at once *)
Inductive in_two : ix -> ix -> ix -> Prop :=
| two_fills a b x : a <> 0 -> b <> 0 ->
    in_two (FillVault a x) (FillVault b x) (FillVault (a + b) x)
| two_deposits a b p o d :
    in_two (DepositMining a p o d) (DepositMining b p o d) (DepositMining (a + b) p o d)
| two_withdrawals a b o d :
    in_two (WithdrawMining a o d) (WithdrawMining b o d) (WithdrawMining (a + b) o d)
| two_changes a b d :
    in_two (ChangeDelegate a d) (ChangeDelegate b d) (ChangeDelegate (a + b) d)
| two_slashes o n1 n2 w1 w2 x :
    in_two (Slash o n1 w1 x) (Slash o n2 w2 x) (Slash o (n1 + n2) (w1 + w2) x)
| two_decreases o a b :
    in_two (DecreaseRewards o a) (DecreaseRewards o b) (DecreaseRewards o (a + b)).

(** a mining has seen everything that happened until [ts] *)
Definition up_to_date (ts : Z) (ci : sched) (m : wmining) : Prop :=
  m_index (wm m) = visible ts ci /\ after (day_start ts) (wm_diffs m) = wm_diffs m.

(** where an instruction lists the minings that get or lose delegated stake *)
Definition delegate_positions (i : ix) : list nat :=
  match i with
  | DepositMining _ _ _ _ | WithdrawMining _ _ _ | ExtendStake _ _ _ _ _ _ _ => [3]%nat
  | ChangeDelegate _ _ => [4; 5]%nat
  | _ => []
  end.

(** every delegate of the call, other than the staker, has seen everything *)
Definition delegates_up_to_date (e : env) (ts : Z) (ms : list meta) (i : ix) (L : ledger) : Prop :=
  forall n P k D w x, In n (delegate_positions i) ->
    account_at ms 0 P -> account_at ms 1 k -> account_at ms n D -> D <> k ->
    is_pool e L P w -> is_mining e L D x -> up_to_date ts (wp_ci w) x.

(** a fill does not take its tokens from the vault itself *)
Definition outside_source (ms : list meta) (i : ix) : Prop :=
  match i with
  | FillVault _ _ => forall V S, account_at ms 2 V -> account_at ms 4 S -> S <> V
  | _ => True
  end.

(** the parts of a slash with a date each leave the native stake within the weighted one *)
Definition sound_part (i : ix) : Prop :=
  match i with Slash _ n w (Some _) => n <= w | _ => True end.

(** the own and delegated-in stake of every mining of the call fit in 64 bits together *)
Definition stakes_fit (e : env) (ms : list meta) (L : ledger) : Prop :=
  forall n k m, account_at ms n k -> is_mining e L k m ->
    m_share (wm m) + m_sfo (wm m) < 18446744073709551616.

(** a change of delegate moves at most the pool's total *)
Definition total_covers (e : env) (ms : list meta) (i : ix) (L : ledger) : Prop :=
  match i with
  | ChangeDelegate a _ => forall P w, account_at ms 0 P -> is_pool e L P w -> a <= p_total (wp w)
  | _ => True
  end.
