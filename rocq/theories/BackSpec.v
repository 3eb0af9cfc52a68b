(** Vocabulary for calls that are taken back at once (claim C63), in terms of Spec.v,
    EffectSpec.v and SuccessSpec.v only. *)
From Verif Require Import Base State Spec EffectSpec Ledger Program LedgerSpec SuccessSpec.

(** the same amount at every date (an entry of amount 0 counts as none) *)
Definition same_amounts (t t' : sched) : Prop := forall d, at_date d t' = at_date d t.

(** [m'] is [m] brought up to date at [ts] and nothing else, up to entries of amount 0 *)
Record only_updated (ts : Z) (ci : sched) (m m' : wmining) : Prop := {
  ou_same : same_mining m m';
  ou_delegated : m_sfo (wm m') = m_sfo (wm m);
  ou_share : m_share (wm m') = share_at ts m;
  ou_index : m_index (wm m') = visible ts ci;
  ou_tokens : m_unclaimed (wm m') = tokens_at ts ci m;
  ou_sched : same_amounts (after (day_start ts) (wm_diffs m)) (wm_diffs m') }.

(** [m'] is [m] brought up to date at [ts], except that the tokens were counted as if the
    delegated-in stake had been [a] more all the time *)
Record counted_with (ts : Z) (ci : sched) (a : Z) (m m' : wmining) : Prop := {
  cw_same : same_mining m m';
  cw_delegated : m_sfo (wm m') = m_sfo (wm m);
  cw_share : m_share (wm m') = share_at ts m;
  cw_index : m_index (wm m') = visible ts ci;
  cw_tokens : m_unclaimed (wm m') = tokens_at ts ci (with_delegated m (m_sfo (wm m) + a));
  cw_sched : wm_diffs m' = after (day_start ts) (wm_diffs m) }.

(** the pool's due expiries are applied, and nothing else changes, up to entries of amount 0 *)
Definition only_expired (ts : Z) (w w' : wpool) : Prop :=
  only_total w w' /\
  p_total (wp w') = p_total (wp w) - due (day_start ts) (wp_diffs w) /\
  same_amounts (after (day_start ts) (wp_diffs w)) (wp_diffs w').

(** tokens a mining gets more for having [a] more delegated-in stake *)
Definition flash_gain (ts : Z) (ci : sched) (a : Z) (m : wmining) : Z :=
  tokens_at ts ci (with_delegated m (m_sfo (wm m) + a)) - tokens_at ts ci m.
