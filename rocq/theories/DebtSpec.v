(** Claim C81: what a pool owes beyond what its vault holds, in units of 10^-16 token, and how much
    every event adds to it.  In the vocabulary of Spec.v and EffectSpec.v and the events of Core.v;
    from the documented effects (programs/rewards/src/instruction.rs 13-169). *)
From stdpp Require Import gmap.
From Verif Require Import Base OMap State Spec MapSum Core DustSpec EffectSpec Ledger Program LedgerLemmas LedgerSpec
  CodecLemmas History LedgerView LossView.

(** The undistributed budget and everything the minings can still get from the recorded
    distributions (Spec.v [owed]), less the vault. *)
Definition debt (c : core) : Z :=
  10000000000000000 * p_avail (wp (c_pool c)) + msum (owed (wp_ci (c_pool c))) (c_min c)
  - 10000000000000000 * c_vault c.

(** The index of all distributions recorded until [ts], and the part of it that a refresh at [ts]
    leaves for later: it is not zero only in the second a distribution is dated at. *)
Definition seen (ts : Z) (ci : sched) : Z := visible (ts + 1) ci.
Definition late (ts : Z) (ci : sched) : Z := seen ts ci - visible ts ci.
(** how far a delegate's mining is behind *)
Definition behind (ts : Z) (c : core) (d : option pubkey) : Z :=
  match d with
  | Some x => match c_min c !! x with Some m => seen ts (wp_ci (c_pool c)) - m_index (wm m) | None => 0 end
  | None => 0
  end.
(** with a delegate, the delegated stake counts once more *)
Definition twice (d : option pubkey) (x : Z) : Z := match d with Some _ => x | None => 0 end.

(** the stake the pool counts on the day of [ts] *)
Definition net (ts : Z) (w : wpool) : Z := p_total (wp w) - due (day_start ts) (wp_diffs w).
(** the distribution of the day of [ts] is recorded *)
Definition recorded (ts : Z) (w : wpool) : bool := existsb (fun kv => fst kv =? day_start ts) (wp_ci w).
(** there is a place for one more distribution *)
Definition unfilled (w : wpool) : bool := Z.of_nat (length (wp_ci w)) <? 1095.
(** tokens of a distribution *)
Definition part (ts : Z) (w : wpool) : Z := daily_part (p_avail (wp w)) (p_ends_at (wp w)) ts.

(** What an event adds to the debt, roundings apart: stake gets, in the second a distribution is
    dated at, a part of that distribution; delegated stake gets everything its delegate has not
    accounted for yet; a penalty reaches back as far as that; a distribution is given out on
    whatever the minings count for, but in shares of what the pool counts. *)
Definition adds (ts : Z) (o : op) (c : core) : Z :=
  let w := c_pool c in let lt := late ts (wp_ci w) in
  match o with
  | ODeposit _ a p d => a * weight_of p * lt + a * behind ts c d
  | OWithdraw _ a d => - (a * lt) - a * behind ts c d
  | OExtend _ old new start b a d =>
      ((b + a) * weight_of new - b * (if unexpired old start ts then weight_of old else 1)) * lt
      + twice d ((b + a) * lt) - b * behind ts c d
  | OChange _ od nd a => a * behind ts c nd - a * behind ts c od
  | OSlash _ _ x _ => - (x * lt)
  | ODecrease k n =>
      match c_min c !! k with
      | Some m =>
          accrual (m_index (wm m))
            (fun d => Z.min n (total (wm_diffs m)) - Z.min n (total (after d (wm_diffs m))) - n) (wp_ci w)
      | None => 0
      end
  | OClaim _ => 0
  | OFill r _ from_vault => if from_vault then 10000000000000000 * r else 0
  | ODonate n => - (10000000000000000 * n)
  | ODistribute =>
      if recorded ts w then 0
      else if unfilled w
      then 10000000000000000 * part ts w / net ts w * (msum (fun m => eff m (day_start ts)) (c_min c) - net ts w)
      else - (10000000000000000 * part ts w)
  | OInit _ _ _ _ => 0
  | OClose k =>
      match c_min c !! k with Some m => - (eff m (day_start ts) * lt) | None => 0 end
  end.

(** What an event may round away at most: a refresh less than a token for every expiry it applies
    and less than one more; a distribution less than one unit per unit of stake. *)
Definition refresh_slack (ts : Z) (c : core) (d : option pubkey) : Z :=
  match d with
  | Some k => match c_min c !! k with
              | Some m => (10000000000000000 - 1) * (1 + count_due (day_start ts) (wm_diffs m))
              | None => 0
              end
  | None => 0
  end.
Definition slack (ts : Z) (o : op) (c : core) : Z :=
  match o with
  | ODeposit k _ _ d | OWithdraw k _ d | OExtend k _ _ _ _ _ d =>
      refresh_slack ts c (Some k) + refresh_slack ts c d
  | OChange k od nd _ => refresh_slack ts c (Some k) + refresh_slack ts c od + refresh_slack ts c nd
  | OSlash k _ _ _ | OClaim k | OClose k => refresh_slack ts c (Some k)
  | ODistribute => if recorded ts (c_pool c) then 0 else if unfilled (c_pool c) then net ts (c_pool c) - 1 else 0
  | ODecrease _ _ | OFill _ _ _ | ODonate _ | OInit _ _ _ _ => 0
  end.

(** ** Instructions and accounts *)

(** an instruction for [P] adds what its event adds, less what a claim pays back into the vault;
    whatever else adds to the vault lowers the debt *)
Definition ix_adds (e : env) (P : pubkey) (now ts : Z) (ms : list meta) (i : ix) (L L' : ledger) (r : option Z) : Z :=
  match vault_at e L P with
  | None => 0
  | Some V =>
      match op_of e P ms i with
      | Some o => adds ts o (core_of e P V now L) - 10000000000000000 * given_back V ms i r
      | None => - (10000000000000000 * (balance L' V - balance L V))
      end
  end.
Definition ix_slack (e : env) (P : pubkey) (now ts : Z) (ms : list meta) (i : ix) (L : ledger) : Z :=
  match vault_at e L P, op_of e P ms i with
  | Some V, Some o => slack ts o (core_of e P V now L)
  | _, _ => 0
  end.
Definition ext_adds (e : env) (P : pubkey) (L L' : ledger) : Z :=
  match vault_at e L P with
  | None => 0
  | Some V => - (10000000000000000 * (balance L' V - balance L V))
  end.

(** any event of the pool *)
Definition anything (ts : Z) (o : op) (c : core) : Prop := True.

(** the runs of LedgerView.v, with the sum of what their events add and of what they may round away *)
Inductive owing_run (e : env) (P : pubkey) : Z -> ledger -> Z -> ledger -> Z -> Z -> Prop :=
| ow_nil now L : owing_run e P now L now L 0 0
| ow_ix now L ts ms i L1 r now' L' x y :
    now <= ts -> is_u64 ts -> ix_in_range i -> exec e ts ms i L = Ok (L1, r) ->
    orderly_ix e P anything now ts ms i L ->
    owing_run e P ts L1 now' L' x y ->
    owing_run e P now L now' L' (ix_adds e P now ts ms i L L1 r + x) (ix_slack e P now ts ms i L + y)
| ow_ext now L ts L1 now' L' x y :
    now <= ts -> is_u64 ts -> external e L L1 -> orderly_ext e P L L1 ->
    owing_run e P ts L1 now' L' x y ->
    owing_run e P now L now' L' (ext_adds e P L L1 + x) y.
Definition owing (e : env) (P : pubkey) (now : Z) (L : ledger) (x y : Z) : Prop :=
  exists L0, genesis e L0 /\ (forall k, derived e k -> owner_of L0 k = system_id) /\
    owing_run e P 0 L0 now L x y.
