(** One pool of the ledger, seen as the state machine of Core.v; the discipline of
    Core.v in terms of accounts. *)
From stdpp Require Import gmap.
From Verif Require Import Base OMap State Spec Core Ledger Program LedgerLemmas LedgerSpec CodecLemmas
  History Clients.

(** an SPL token account *)
Definition is_token (e : env) (L : ledger) (k : pubkey) (t : token) : Prop :=
  owner_of L k = spl_token_id e /\ data_of L k = DToken t.

(** an account that is a mining of pool [P] (Mining.reward_pool, mining.rs 115) *)
Definition live (e : env) (P : pubkey) (a : account) : option wmining :=
  match a_data a with
  | DMining m => if (a_owner a =? program_id e) && (m_pool (wm m) =? P) then Some m else None
  | _ => None
  end.
(** the minings of pool [P] by address *)
Definition minings_of (e : env) (P : pubkey) (L : ledger) : gmap Z wmining := omap (live e P) L.
(** the pool at [P] *)
Definition pool_of (L : ledger) (P : pubkey) : wpool :=
  match data_of L P with DPool w => w | _ => zero_wpool end.
(** the tokens at an address, spl_token Account.amount (dependency) *)
Definition balance (L : ledger) (k : pubkey) : Z :=
  match data_of L k with DToken t => t_amount t | _ => 0 end.

(** [P] is an initialised pool with vault [V] (address: utils.rs 37-50) *)
Definition pool_vault (e : env) (L : ledger) (P V : pubkey) (w : wpool) : Prop :=
  is_pool e L P w /\ p_type (wp w) = 1 /\ cpa_vault e P (p_mint (wp w)) (p_bump (wp w)) = Some V.

(** the state of Core.v that the ledger holds for pool [P] with vault [V] *)
Definition core_of (e : env) (P V : pubkey) (now : Z) (L : ledger) : core :=
  Core (pool_of L P) (minings_of e P L) (balance L V) now.

(** a delegate account other than the staker's own (utils.rs 109-119) *)
Definition other (d k : pubkey) : option pubkey := if d =? k then None else Some d.

(** the event of Core.v an instruction is for pool [P], by the positions of its accounts
    (instruction.rs 16-170) *)
Definition op_of (e : env) (P : pubkey) (ms : list meta) (i : ix) : option op :=
  let at_pool p o := if p =? P then Some o else None in
  match i, map mt_key ms with
  | FillVault r x, p :: _ :: v :: _ :: s :: _ => at_pool p (OFill r x (s =? v))
  | InitializeMining o, p :: k :: _ => at_pool p (OInit k p o (snd (find_mining e o p)))
  | DepositMining a l _ _, p :: k :: _ :: d :: _ => at_pool p (ODeposit k a l (other d k))
  | WithdrawMining a _ _, p :: k :: _ :: d :: _ => at_pool p (OWithdraw k a (other d k))
  | Claim, p :: _ :: _ :: k :: _ => at_pool p (OClaim k)
  | ExtendStake ol nl s b a _ _, p :: k :: _ :: d :: _ => at_pool p (OExtend k ol nl s b a (other d k))
  | DistributeRewards, p :: _ => at_pool p ODistribute
  | CloseMining, k :: _ :: _ :: _ :: p :: _ => at_pool p (OClose k)
  | ChangeDelegate a _, p :: k :: _ :: _ :: od :: nd :: _ => at_pool p (OChange k (other od k) (other nd k) a)
  | Slash _ n w d, _ :: p :: k :: _ => at_pool p (OSlash k n w d)
  | DecreaseRewards _ n, _ :: p :: k :: _ => at_pool p (ODecrease k n)
  | _, _ => None
  end.

(** ** Discipline *)

(** addresses derived from this program's id *)
Definition derived (e : env) (k : pubkey) : Prop :=
  (exists o p b, cpa_mining e o p b = Some k) \/ (exists p m b, cpa_vault e p m b = Some k).

(** What an instruction, for whatever pool, has to respect for [P]'s sake:
    - nobody signs for the all-zero key;
    - an account becomes the pool only if it holds lamports;
    - no other pool is filled from a vault of [P];
    - the old delegate of ChangeDelegate belongs to the pool named;
    - a mining of [P] is closed only under the name of [P];
    - as an event of [P] it satisfies [D]. *)
Record orderly_ix (e : env) (P : pubkey) (D : Z -> op -> core -> Prop) (now ts : Z) (ms : list meta) (i : ix)
    (L : ledger) : Prop := {
  oi_zero : ~ signed ms system_id;
  oi_init : forall f d, i = InitializePool f d -> account_at ms 0 P -> 0 < a_lamports (acc L P);
  oi_fill : forall r x p s m b, i = FillVault r x -> account_at ms 0 p -> p <> P -> account_at ms 4 s ->
    cpa_vault e P m b <> Some s;
  oi_change : forall a n p k od, i = ChangeDelegate a n ->
    account_at ms 0 p -> account_at ms 1 k -> account_at ms 4 od ->
    od = k \/ exists x, is_mining e L od x /\ m_pool (wm x) = p;
  oi_close : forall k m p, i = CloseMining -> account_at ms 0 k -> account_at ms 4 p ->
    is_mining e L k m -> m_pool (wm m) = P -> p = P;
  oi_event : forall V w o, pool_vault e L P V w -> op_of e P ms i = Some o -> D ts o (core_of e P V now L) }.

(** What happens outside the program: derived addresses get a new owner only by being
    emptied (nobody else can sign for them), and the vaults of [P] lose no tokens (their
    owner, the deposit authority, could move them). *)
Record orderly_ext (e : env) (P : pubkey) (L L' : ledger) : Prop := {
  oe_derived : forall k, derived e k -> owner_of L' k = owner_of L k \/ owner_of L' k = system_id;
  oe_vault : forall m b V t, cpa_vault e P m b = Some V -> is_token e L V t ->
    exists t', is_token e L' V t' /\ t_mint t' = t_mint t /\ t_owner t' = t_owner t /\ t_amount t <= t_amount t' }.

(** histories as in History.v whose events are all orderly *)
Inductive orderly_run (e : env) (P : pubkey) (D : Z -> op -> core -> Prop)
  : Z -> ledger -> Z -> ledger -> Prop :=
| or_nil now L : orderly_run e P D now L now L
| or_ix now L ts ms i L1 r now' L' :
    now <= ts -> is_u64 ts -> ix_in_range i -> exec e ts ms i L = Ok (L1, r) ->
    orderly_ix e P D now ts ms i L ->
    orderly_run e P D ts L1 now' L' -> orderly_run e P D now L now' L'
| or_ext now L ts L1 now' L' :
    now <= ts -> is_u64 ts -> external e L L1 -> orderly_ext e P L L1 ->
    orderly_run e P D ts L1 now' L' -> orderly_run e P D now L now' L'.

(** a ledger reached by such a history from a chain on which the program was never used *)
Definition orderly (e : env) (P : pubkey) (D : Z -> op -> core -> Prop) (now : Z) (L : ledger) : Prop :=
  exists L0, genesis e L0 /\ (forall k, derived e k -> owner_of L0 k = system_id) /\
    orderly_run e P D 0 L0 now L.

(** ** What stakers see *)

(** a mining of pool [P] *)
Definition mining_in (e : env) (L : ledger) (P k : pubkey) (m : wmining) : Prop :=
  is_mining e L k m /\ m_pool (wm m) = P.

(** a list of exactly the minings of [P] *)
Definition lists_minings (e : env) (L : ledger) (P : pubkey) (l : list (pubkey * wmining)) : Prop :=
  List.NoDup (map fst l) /\ forall k m, In (k, m) l <-> mining_in e L P k m.

(** a sum *)
Fixpoint zsum (l : list Z) : Z := match l with [] => 0 | x :: r => x + zsum r end.

(** some claim for the mining [k] of pool [P] (accounts: instruction.rs 85-93) would
    succeed at [ts] and return [a] (claim.rs 79-81) *)
Definition claim_returns (e : env) (ts : Z) (L : ledger) (P k : pubkey) (a : Z) : Prop :=
  exists ms L', account_at ms 0 P /\ account_at ms 3 k /\ exec e ts ms Claim L = Ok (L', Some a).

(** a token account a claim for mining [m] can pay into *)
Definition payable (e : env) (L : ledger) (w : wpool) (V : pubkey) (m : wmining) (T : pubkey) : Prop :=
  exists t, is_token e L T t /\ t_owner t = m_owner (wm m) /\ t_mint t = p_mint (wp w) /\
    T <> V /\ t_amount t + balance L V < U64.

(** claims one after the other at one time, each built by the crate's [claim]
    (instruction.rs 323-345) from a mining and a token account; the amounts returned *)
Fixpoint claims (e : env) (ts : Z) (P mint V auth : pubkey) (l : list (pubkey * pubkey * pubkey)) (L : ledger)
  : res (ledger * list Z) :=
  match l with
  | [] => Ok (L, [])
  | (k, owner, T) :: r =>
      let? (L1, x) := exec e ts (fst (b_claim e P mint V k owner auth T)) Claim L in
      let? (L2, xs) := claims e ts P mint V auth r L1 in
      Ok (L2, match x with Some a => a :: xs | None => xs end)
  end.

(** The vault of [P] does not cover the budget and the rewards: the claims that would
    succeed at [ts], each on its own, together exceed it, or the token program refuses
    a claim into a fitting account. *)
Definition ledger_insolvent (e : env) (ts : Z) (L : ledger) (P : pubkey) : Prop :=
  exists V w, pool_vault e L P V w /\
    ((exists l, List.NoDup (map fst l) /\ (forall k a, In (k, a) l -> claim_returns e ts L P k a) /\
        balance L V < p_avail (wp w) + zsum (map snd l)) \/
     (exists k m T, mining_in e L P k m /\ payable e L w V m T /\ owner_of L (p_mint (wp w)) = spl_token_id e /\
        exec e ts (fst (b_claim e P (p_mint (wp w)) V k (m_owner (wm m)) (p_deposit_auth (wp w)) T)) Claim L
          = Err EToken)).
