(** C95: all stakers can leave, in any order. *)
From stdpp Require Import gmap.
From Verif Require Import Base OMap State Spec EffectSpec Core CoreRun Witness Ledger Program Clients LedgerLemmas LedgerSpec
  CodecLemmas History HistoryLemmas HistoryThms Scenario Attacks LedgerView LedgerCore LedgerCoreThms LedgerOrderly EffectThms EffectExamples SuccessSpec
  Leave PropsLeave WindUpSpec WindUp.

(** any number of stakers to whom nobody delegates, in any order *)
Theorem C95_leave : forall e, env_ok e -> env_inj e -> 0 < rent_min e MINING_LEN ->
  forall P, P <> 0 -> forall l now ts L V w,
  orderly e P disciplined now L -> pool_vault e L P V w -> now <= ts -> is_u64 ts ->
  owner_of L (p_mint (wp w)) = spl_token_id e -> p_deposit_auth (wp w) <> system_id ->
  List.NoDup (map d_mining l) -> List.NoDup (map d_to l) ->
  (forall d, In d l -> may_leave e L P V w l d) ->
  exists L' xs w', departures e ts P (p_mint (wp w)) V (p_deposit_auth (wp w)) l L = Ok (L', xs) /\
    Forall2 (has_left e ts P w L L') l xs /\
    balance L' V = balance L V - zsum xs /\
    (forall t, In t (map d_target l) -> lamports_of L' t = lamports_of L t + refund L t l) /\
    pool_vault e L' P V w' /\ only_total w w' /\
    (forall d, day_start ts <= d -> p_total (wp w') - due d (wp_diffs w') = p_total (wp w) - due d (wp_diffs w) - leaving l) /\
    (forall q, q <> P -> q <> V -> ~ In q (map d_to l) -> ~ In q (map d_mining l) -> ~ In q (map d_dm l) ->
       ~ In q (map d_target l) -> acc L' q = acc L q) /\
    (forall q m, mining_in e L' P q m -> ~ In q (map d_mining l) /\ exists m0, mining_in e L P q m0) /\
    (l <> [] -> orderly e P disciplined ts L').
Proof. exact wind_up. Qed.
Print Assumptions C95_leave.

(** all of them, when the bonuses have expired: nothing is left of the stakes, the budget still is *)
Theorem C95_all_leave : forall e, env_ok e -> env_inj e -> 0 < rent_min e MINING_LEN ->
  forall P, P <> 0 -> forall l now ts L V w,
  orderly e P exact_disciplined now L -> pool_vault e L P V w -> now <= ts -> is_u64 ts ->
  owner_of L (p_mint (wp w)) = spl_token_id e -> p_deposit_auth (wp w) <> system_id ->
  List.NoDup (map d_mining l) -> List.NoDup (map d_to l) ->
  (forall d, In d l -> may_leave e L P V w l d) ->
  (forall k m, mining_in e L P k m -> exists d, In d l /\ d_mining d = k /\ d_dm d = k /\ d_stake d = unlocked_stake m /\
     forall x v, In (x, v) (wm_diffs m) -> x <= day_start ts) ->
  exists L' xs w', departures e ts P (p_mint (wp w)) V (p_deposit_auth (wp w)) l L = Ok (L', xs) /\
    Forall2 (has_left e ts P w L L') l xs /\
    pool_vault e L' P V w' /\ (forall k m, ~ mining_in e L' P k m) /\
    (forall d, day_start ts <= d -> p_total (wp w') - due d (wp_diffs w') = 0) /\
    p_avail (wp w') = p_avail (wp w) /\ p_avail (wp w) <= balance L' V /\ balance L' V = balance L V - zsum xs.
Proof. exact all_leave. Qed.
Print Assumptions C95_all_leave.

(** BOB takes back what is delegated to CAROL and to ALICE.  On day 600, when nobody delegates any more and all bonuses are gone, CAROL, ALICE and BOB leave
    in this order; all lamports go to PAYER. *)
Definition home : list call := going ++ [(noon 195, call_of (OChange 2 (Some 1) None 300))].
Definition LH : ledger := ledger_after home.
Definition mining_now (L : ledger) (k : pubkey) : wmining := match data_of L k with DMining m => m | _ => zero_wmining end.
Definition token_now (L : ledger) (k : pubkey) : token := match data_of L k with DToken t => t | _ => Token 0 0 0 end.
Definition bye (k : Z) : departure :=
  Departure (mn k) (who k) (purse k) (mn k) (who k) (unlocked_stake (mining_now LH (mn k))) PAYER.
Definition byes : list departure := [bye 3; bye 1; bye 2].

Example C95_may_leave : forall d, In d byes -> may_leave env0 LH POOL (vault_of POOL) (pool_now LH) byes d.
Proof.
  intros d Hd. exists (mining_now LH (d_mining d)).
  cbn [byes In] in Hd. decompose [or] Hd; subst; try contradiction.
  all: split; [split; [split; vm_compute; reflexivity|vm_compute; reflexivity]|].
  all: split; [vm_compute; reflexivity|]. all: split; [vm_compute; discriminate|].
  all: split; [vm_compute; split; [discriminate|reflexivity]|]. all: split; [vm_compute; split; [discriminate|reflexivity]|].
  all: split; [match goal with |- payable _ _ _ _ _ ?T => exists (token_now LH T) end; split; [split; vm_compute; reflexivity|];
    split; [vm_compute; reflexivity|]; split; [vm_compute; reflexivity|]; split; [vm_compute; discriminate|vm_compute; reflexivity]|].
  all: split; [vm_compute; reflexivity|]. all: split; [split; [vm_compute; discriminate|cbn [bye d_stake d_mining]; lia]|].
  all: split; [left; reflexivity|]. all: split; vm_compute; reflexivity.
Qed.

Example C95_example :
  orderly env0 POOL exact_disciplined (noon 195) LH /\
  pool_vault env0 LH POOL (vault_of POOL) (pool_now LH) /\
  List.NoDup (map d_mining byes) /\ List.NoDup (map d_to byes) /\
  map d_stake byes = [40; 120; 300] /\
  match departures env0 (noon 600) POOL MINT (vault_of POOL) FILLER byes LH with
  | Ok (L, xs) => xs = [5406; 10591; 5834] /\ map (fun k => balance L (purse k) - balance LH (purse k)) [3; 1; 2] = xs /\
      balance LH (vault_of POOL) = 88518 /\ balance L (vault_of POOL) = 66687 /\ p_avail (wp (pool_now L)) = 53009 /\
      p_total (wp (pool_now LH)) = 1020 /\ p_total (wp (pool_now L)) = 0 /\
      lamports_of L PAYER - lamports_of LH PAYER = 57120
  | Err _ => False
  end.
Proof.
  split; [apply (orderly_play_ok _ _ _ _ _ exact_b_ok); vm_compute; reflexivity|].
  split; [apply has_pool_ok; vm_compute; reflexivity|].
  split; [repeat constructor; vm_compute; intuition discriminate|]. split; [repeat constructor; vm_compute; intuition discriminate|].
  vm_compute. auto 12.
Qed.

(** ALICE stays; CAROL leaves, and BOB, who takes the 300 back from ALICE *)
Definition some_leave : list departure :=
  [Departure (mn 3) CAROL CAROL_T (mn 3) CAROL 40 CAROL; Departure (mn 2) BOB BOB_T (mn 1) ALICE 300 PAYER].
Example C95_delegate_stays :
  (forall d, In d some_leave -> may_leave env0 LG POOL (vault_of POOL) (pool_now LG) some_leave d) /\
  leaving some_leave = 640 /\ taken (mn 1) some_leave = 300 /\ m_sfo (wm (mining_now LG (mn 1))) = 300 /\
  match departures env0 (noon 600) POOL MINT (vault_of POOL) FILLER some_leave LG with
  | Ok (L, xs) => xs = [5406; 5834] /\ m_sfo (wm (mining_now L (mn 1))) = 0 /\
      p_total (wp (pool_now LG)) - due (noon 600) (wp_diffs (pool_now LG)) = 760 /\ p_total (wp (pool_now L)) = 120
  | Err _ => False
  end.
Proof.
  split.
  - intros d Hd. exists (mining_now LG (d_mining d)).
    cbn [some_leave In] in Hd. decompose [or] Hd; subst; try contradiction.
    all: split; [split; [split; vm_compute; reflexivity|vm_compute; reflexivity]|].
    all: split; [vm_compute; reflexivity|]. all: split; [vm_compute; discriminate|].
    all: split; [vm_compute; split; [discriminate|reflexivity]|]. all: split; [vm_compute; split; [discriminate|reflexivity]|].
    all: split; [match goal with |- payable _ _ _ _ _ ?T => exists (token_now LG T) end; split; [split; vm_compute; reflexivity|];
      split; [vm_compute; reflexivity|]; split; [vm_compute; reflexivity|]; split; [vm_compute; discriminate|vm_compute; reflexivity]|].
    all: split; [vm_compute; reflexivity|]. all: split; [split; vm_compute; discriminate|].
    all: split; [|split; vm_compute; reflexivity].
    + left. reflexivity.
    + right. split; [vm_compute; intuition discriminate|]. exists (mining_now LG (mn 1)).
      split; [split; [split; vm_compute; reflexivity|vm_compute; reflexivity]|]. split; [vm_compute; reflexivity|vm_compute; discriminate].
  - vm_compute. auto 10.
Qed.

(** Somebody to whom others delegate cannot leave: ALICE, while BOB's 300 are with the mining. *)
Theorem C95_delegate_refuted : exists P now ts L V w d,
  orderly env0 P disciplined now L /\ pool_vault env0 L P V w /\ now <= ts /\
  (exists m, mining_in env0 L P (d_mining d) m /\ m_owner (wm m) = d_owner d /\ payable env0 L w V m (d_to d) /\
     d_dm d = d_mining d /\ 0 <= d_stake d <= unlocked_stake m /\ m_sfo (wm m) = 300) /\
  departures env0 ts P (p_mint (wp w)) V (p_deposit_auth (wp w)) [d] L = Err StakeFromOthersMustBeZero.
Proof.
  exists POOL, (noon 195), (noon 600), LG, (vault_of POOL), (pool_now LG), (Departure (mn 1) ALICE ALICE_T (mn 1) ALICE 120 PAYER).
  split; [apply (orderly_play_ok _ _ _ _ _ disciplined_b_ok); vm_compute; reflexivity|].
  split; [apply has_pool_ok; vm_compute; reflexivity|]. split; [vm_compute; discriminate|].
  split; [|vm_compute; reflexivity]. exists (mining_now LG (mn 1)).
  split; [split; [split; vm_compute; reflexivity|vm_compute; reflexivity]|]. split; [vm_compute; reflexivity|].
  split; [exists (token_now LG ALICE_T); split; [split; vm_compute; reflexivity|]; split; [vm_compute; reflexivity|];
    split; [vm_compute; reflexivity|]; split; [vm_compute; discriminate|vm_compute; reflexivity]|].
  split; [reflexivity|]. split; [split; vm_compute; discriminate|vm_compute; reflexivity].
Qed.
Print Assumptions C95_delegate_refuted.
