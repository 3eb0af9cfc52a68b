(** One pool with its minings and its vault as a state machine, driven by the
    State.v functions.  LedgerCore.v relates it to the ledger model
    (Program.v). *)
From stdpp Require Import gmap.
From Verif Require Import Base OMap State Spec.

(** Pool account, the pool's mining accounts by address, token balance of the
    vault, time of the last event. *)
Record core := Core {
  c_pool : wpool;
  c_min : gmap Z wmining;
  c_vault : Z;
  c_now : Z }.

(** Events.  A delegate is [None] when it is the staker's own mining
    (utils.rs 109-119). *)
Inductive op :=
| ODeposit (k : pubkey) (amount : Z) (p : lockup) (d : option pubkey)
| OWithdraw (k : pubkey) (amount : Z) (d : option pubkey)
| OExtend (k : pubkey) (old_p new_p : lockup) (start base additional : Z) (d : option pubkey)
| OChange (k : pubkey) (old_d new_d : option pubkey) (amount : Z)
| OSlash (k : pubkey) (native weighted : Z) (date : option Z)
| ODecrease (k : pubkey) (n : Z)
| OClaim (k : pubkey)
| OFill (rewards ends_at : Z) (from_vault : bool)  (* whether the source is the vault itself *)
| ODonate (n : Z)               (* anybody may send tokens to the vault *)
| ODistribute
| OInit (k pool owner : pubkey) (bump : Z)
| OClose (k : pubkey).

(** an instruction on an account that is not a mining of the pool fails (asserts.rs 101-133) *)
Definition get_min (M : gmap Z wmining) (k : pubkey) : res wmining :=
  match M !! k with Some m => Ok m | None => Err EInvalidArgument end.

(** a delegate distinct from [k] *)
Definition get_dlg (M : gmap Z wmining) (k : pubkey) (d : option pubkey) : res dlg :=
  match d with
  | None => Ok None
  | Some x => if x =? k then Err EInvalidArgument
              else let? m := get_min M x in Ok (Some (Ok m))
  end.

(** writing a delegate back *)
Definition put_opt (d : option pubkey) (x : option wmining) (M : gmap Z wmining) : gmap Z wmining :=
  match d, x with Some k, Some m => <[k := m]> M | _, _ => M end.

(** spl_token Transfer (dependency): the amount may not exceed u64 *)
Definition vault_add (v n : Z) : res Z := if v + n <? U64 then Ok (v + n) else Err EToken.

(** deposit_mining.rs 40, withdraw_mining.rs 41, extend_stake.rs 45-53,
    change_delegate.rs 52-57, penalties/slash.rs 31-36,
    penalties/decrease_rewards.rs 29, claim.rs 60-77, fill_vault.rs 48-78,
    distribute_rewards.rs 15-22, initialize_mining.rs 43-47, close_mining.rs 31-52 *)
Definition core_step (ts : Z) (o : op) (c : core) : res core :=
  let w := c_pool c in let M := c_min c in let v := c_vault c in
  match o with
  | ODeposit k a p d =>
      let? m := get_min M k in
      let? dl := get_dlg M k d in
      let? (w', m', d') := deposit ts w m a p dl in
      Ok (Core w' (put_opt d d' (<[k := m']> M)) v ts)
  | OWithdraw k a d =>
      let? m := get_min M k in
      let? dl := get_dlg M k d in
      let? (w', m', d') := withdraw ts w m a dl in
      Ok (Core w' (put_opt d d' (<[k := m']> M)) v ts)
  | OExtend k op np st b a d =>
      let? m := get_min M k in
      let? dl := get_dlg M k d in
      let? (w', m', d') := extend ts w m op np st b a dl in
      Ok (Core w' (put_opt d d' (<[k := m']> M)) v ts)
  | OChange k od nd a =>
      check? negb (bool_decide (od = nd)) else DelegatesAreTheSame in
      let? m := get_min M k in
      let? odl := get_dlg M k od in
      let? ndl := get_dlg M k nd in
      let? (w', m', od', nd') := change_delegate ts w m ndl odl a in
      Ok (Core w' (put_opt nd nd' (put_opt od od' (<[k := m']> M))) v ts)
  | OSlash k n wt dt =>
      let? m := get_min M k in
      let? (w', m') := slash ts w m n wt dt in
      Ok (Core w' (<[k := m']> M) v ts)
  | ODecrease k n =>
      let? m := get_min M k in
      let? m' := decrease_rewards n m in
      Ok (Core w (<[k := m']> M) v ts)
  | OClaim k =>
      let? m := get_min M k in
      let? m1 := refresh ts (wp_ci w) m in
      let amount := m_unclaimed (wm m1) in
      check? amount <=? v else EToken in
      Ok (Core w (<[k := WMining (mining_claim (wm m1)) (wm_diffs m1)]> M) (v - amount) ts)
  | OFill r x from_vault =>
      check? negb (r =? 0) else RewardsMustBeGreaterThanZero in
      let? w' := fill_pool ts r x w in
      if from_vault then
        check? r <=? v else EToken in
        Ok (Core w' M v ts)
      else
        let? v' := vault_add v r in
        Ok (Core w' M v' ts)
  | ODonate n =>
      let? v' := vault_add v n in
      Ok (Core w M v' ts)
  | ODistribute =>
      let? r := rewards_to_distribute ts (wp w) in
      let? w' := distribute ts r w in
      Ok (Core w' M v ts)
  | OInit k pool owner bump =>
      match M !! k with
      | Some _ => Err EAlreadyInit
      | None => Ok (Core w (<[k := WMining (mining_initialize pool owner bump) []]> M) v ts)
      end
  | OClose k =>
      let? m := get_min M k in
      let? m1 := refresh ts (wp_ci w) m in
      check? negb (0 <? m_sfo (wm m1)) else StakeFromOthersMustBeZero in
      check? m_unclaimed (wm m1) =? 0 else RewardsMustBeClaimed in
      Ok (Core w (delete k M) v ts)
  end.

(** arguments are unsigned 64-bit numbers *)
Definition op_wf (o : op) : Prop :=
  match o with
  | ODeposit _ a _ _ => is_u64 a
  | OWithdraw _ a _ => is_u64 a
  | OExtend _ _ _ s b a _ => is_u64 s /\ is_u64 b /\ is_u64 a
  | OChange _ _ _ a => is_u64 a
  | OSlash _ n w d => is_u64 n /\ is_u64 w /\ match d with Some x => is_u64 x | None => True end
  | ODecrease _ n => is_u64 n
  | OFill r x _ => is_u64 r /\ is_u64 x
  | ODonate n => is_u64 n
  | OClaim _ | ODistribute | OInit _ _ _ _ | OClose _ => True
  end.

(** * The discipline under which the pool is solvent *)

(** weighted stake that no longer carries a bonus *)
Definition unlocked (w : wmining) : Z := m_share (wm w) - total (wm_diffs w).

(** no distribution is recorded for the very second [ts] (possible only in
    the first second of a UTC day) *)
Definition no_midnight (ts : Z) (c : core) : Prop := forall i, ~ In (ts, i) (wp_ci (c_pool c)).

(** the mining has accounted for every distribution visible at [ts] *)
Definition up_to_date (ts : Z) (c : core) (d : option pubkey) : Prop :=
  forall x m, d = Some x -> c_min c !! x = Some m ->
  m_index (wm m) = visible ts (wp_ci (c_pool c)).

(** the mining has a schedule slot for [date] *)
Definition room (ts date : Z) (w : wmining) : Prop :=
  (exists v, In (date, v) (wm_diffs w)) \/
  Z.of_nat (length (after (day_start ts) (wm_diffs w))) < 50.

(** [P] holds of the mining at [k], if there is one *)
Definition mining_is (c : core) (k : pubkey) (P : wmining -> Prop) : Prop :=
  forall m, c_min c !! k = Some m -> P m.

(** The conditions, one by one. *)
Inductive cond :=
| FreshDelegate   (* stake is delegated only to minings that are up to date *)
| ExpiredExtend   (* only flex or expired stakes are extended *)
| MiningRoom      (* the mining has a schedule slot for a new expiry *)
| NoMidnight      (* stake is not raised in the second a distribution is dated at *)
| OnlyUnlocked    (* only unlocked stake is withdrawn, slashed or extended *)
| OutsideSource.  (* the vault is not filled from itself *)

(** what each condition asks of each event *)
Definition cond_ok (x : cond) (ts : Z) (o : op) (c : core) : Prop :=
  match x, o with
  | FreshDelegate, ODeposit _ _ _ d => up_to_date ts c d
  | FreshDelegate, OChange _ _ d _ => up_to_date ts c d
  | ExpiredExtend, OExtend _ old _ start _ _ _ => old = LFlex \/ expiry old start <= ts
  | MiningRoom, ODeposit k _ p _ => mining_is c k (room ts (expiry p ts))
  | MiningRoom, OExtend k _ p _ _ _ _ => mining_is c k (room ts (expiry p ts))
  | NoMidnight, ODeposit _ _ _ _ => no_midnight ts c
  | NoMidnight, OExtend _ _ _ _ _ _ _ => no_midnight ts c
  | NoMidnight, OChange _ _ _ _ => no_midnight ts c
  | OnlyUnlocked, OWithdraw k a _ => mining_is c k (fun m => a <= unlocked m)
  | OnlyUnlocked, OExtend k _ _ _ b _ _ => mining_is c k (fun m => b <= unlocked m)
  | OnlyUnlocked, OSlash k _ w None => mining_is c k (fun m => w <= unlocked m)
  | OnlyUnlocked, OSlash k n _ (Some _) => mining_is c k (fun m => n <= unlocked m)
  | OutsideSource, OFill _ _ from_vault => from_vault = false
  | _, _ => True
  end.

(** all the conditions *)
Definition disciplined (ts : Z) (o : op) (c : core) : Prop := forall x, cond_ok x ts o c.
(** all conditions but one *)
Definition all_but (x : cond) (ts : Z) (o : op) (c : core) : Prop :=
  forall y, y <> x -> cond_ok y ts o c.

(** the pool's schedule has a slot for [date] *)
Definition pool_room (c : core) (date : Z) : Prop :=
  (exists v, In (date, v) (wp_diffs (c_pool c))) \/
  Z.of_nat (length (wp_diffs (c_pool c))) < 365.

(** the discipline under which the pool's total share is exact: in addition, no
    penalty without its counterpart in the pool, no close with stake left, no
    overflow of the pool's schedule *)
Definition exact_disciplined (ts : Z) (o : op) (c : core) : Prop :=
  disciplined ts o c /\
  match o with
  | ODeposit _ _ p _ => pool_room c (expiry p ts)
  | OExtend _ _ np _ _ _ _ => pool_room c (expiry np ts)
  | ODecrease _ n => n = 0
  | OClose k => mining_is c k (fun m => m_share (wm m) = due (day_start ts) (wm_diffs m))
  | _ => True
  end.

(** a freshly initialised pool *)
Definition fresh_core (w : wpool) (v now : Z) : core := Core w ∅ v now.
(** as RewardPool::initialize leaves it, reward_pool.rs 464-483 *)
Definition fresh_pool (w : wpool) : Prop :=
  exists b d1 d2 d3 m, w = WPool (Pool d1 d2 d3 m 0 0 0 0 b TYPE_POOL) [] [].

(** [history P c c']: c' results from c by a sequence of successful events, each
    at a time not before the previous one, each satisfying [P] in its state *)
Inductive history (P : Z -> op -> core -> Prop) : core -> core -> Prop :=
| h_refl c : history P c c
| h_step c c1 c2 ts o :
    history P c c1 ->
    c_now c1 <= ts -> is_u64 ts -> op_wf o -> P ts o c1 ->
    core_step ts o c1 = Ok c2 ->
    history P c c2.

(** a state reached from a fresh pool by events satisfying [P] *)
Definition reachable (P : Z -> op -> core -> Prop) (c : core) : Prop :=
  exists w v t, fresh_pool w /\ 0 <= v < U64 /\ 0 <= t /\ history P (fresh_core w v t) c.

(** what a claim at [ts] would pay *)
Definition claimable (ts : Z) (c : core) (m : wmining) : Z :=
  match refresh ts (wp_ci (c_pool c)) m with Ok m' => m_unclaimed (wm m') | Err _ => 0 end.
