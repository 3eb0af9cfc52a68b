(** C85: a pool and its minings can be worked out from the log of the pool's calls alone. *)
From stdpp Require Import gmap.
From Verif Require Import Base OMap State Spec EffectSpec Ledger Program Clients LedgerLemmas LedgerSpec
  CodecLemmas History Scenario Attacks HistoryThms ReachThms FreezeSpec PropsFreeze CapSpec IncomeSpec DiarySpec Diary PropsDiary LogSpec Log.

(** Two histories, and a pool in each, of any authorities; the logs are the same and the pools begin
    alike: they end alike. *)
Theorem C85_pool : forall e1 e2, env_ok e1 -> env_ok e2 -> forall P1 P2 now1 L1 now1' L1' now2 L2 now2' L2' b v w v' w',
  reached e1 now1 L1 -> reached e2 now2 L2 ->
  pool_log e1 P1 now1 L1 now1' L1' b -> pool_log e2 P2 now2 L2 now2' L2' b ->
  is_pool e1 L1 P1 v -> is_pool e2 L2 P2 w -> pools_alike v w ->
  is_pool e1 L1' P1 v' -> is_pool e2 L2' P2 w' -> pools_alike v' w'.
Proof. exact same_log. Qed.
Print Assumptions C85_pool.

(** If the log also tells where a mining stands in the calls, and no other pool's call works on it,
    then the mining ends alike as well, and the same amount has been paid for it. *)
Theorem C85_mining : forall e1 e2, env_ok e1 -> env_ok e2 -> forall P1 P2 k1 k2 now1 L1 now1' L1' now2 L2 now2' L2' b x y v w v' w' m n m' n',
  reached e1 now1 L1 -> reached e2 now2 L2 ->
  full_log e1 P1 k1 now1 L1 now1' L1' b x -> full_log e2 P2 k2 now2 L2 now2' L2' b y ->
  is_pool e1 L1 P1 v -> is_pool e2 L2 P2 w -> pools_alike v w ->
  is_mining e1 L1 k1 m -> is_mining e2 L2 k2 n -> alike m n ->
  is_pool e1 L1' P1 v' -> is_pool e2 L2' P2 w' -> is_mining e1 L1' k1 m' -> is_mining e2 L2' k2 n' ->
  x = y /\ pools_alike v' w' /\ alike m' n'.
Proof. exact same_full_log. Qed.
Print Assumptions C85_mining.

(** ** Logs of given calls *)
Definition running_b (P : pubkey) (L : ledger) : bool :=
  match data_of L P with DPool w => (owner_of L P =? program_id env0) && (p_type (wp w) =? 1) | _ => false end.
Lemma running_b_ok P L : running_b P L = true -> running env0 P L.
Proof.
  unfold running_b. destruct (data_of L P) as [| |w| | | |] eqn:E; try discriminate. intros H. apply andb_true_iff in H as [H1 H2].
  apply Z.eqb_eq in H1, H2. exists w. split; [split; assumption|assumption].
Qed.
Definition home_b (P k : pubkey) (ms : list meta) (i : ix) : bool :=
  match places k ms i with [] => true | _ => names ms (pool_position i) P end.
Fixpoint write_log (P k : pubkey) (now : Z) (L : ledger) (l : list call) : option (Z * ledger * list full_entry * Z) :=
  if running_b P L && mining_b k L then
    match l with
    | [] => Some (now, L, [], 0)
    | (ts, (ms, i)) :: r =>
        if (now <=? ts) && u64_b ts && range_b i && home_b P k ms i then
          match exec env0 ts ms i L with
          | Ok (L1, a) =>
              match write_log P k ts L1 r with
              | Some (n, L2, d, x) => Some (n, L2, logged_with P k ts ms i ++ d, takes k ms i a + x)
              | None => None
              end
          | Err _ => None
          end
        else None
    end
  else None.
Lemma write_log_ok P k l : forall now L now' L' d x, write_log P k now L l = Some (now', L', d, x) -> full_log env0 P k now L now' L' d x.
Proof.
  induction l as [|[ts [ms i]] r IH]; cbn [write_log]; intros now L now' L' d x H;
    (destruct (_ && _) eqn:W; [apply andb_true_iff in W as [W1 W2]; apply running_b_ok in W1; apply mining_b_ok in W2|discriminate]).
  - injection H as <- <- <- <-. constructor; assumption.
  - destruct (_ && _ && _ && _) eqn:G; [|discriminate]. apply andb_true_iff in G as [G G5]. apply andb_true_iff in G as [G G3]. apply andb_true_iff in G as [G1 G2].
    apply Z.leb_le in G1. unfold u64_b in G2. apply andb_true_iff in G2 as [G2 G4]. apply Z.leb_le in G2. apply Z.ltb_lt in G4.
    destruct (exec _ _ _ _ _) as [[L1 a]|] eqn:X; [|discriminate].
    destruct (write_log P k ts L1 r) as [[[[n L2] d2] x2]|] eqn:K; [|discriminate]. injection H as <- <- <- <-.
    eapply fl_ix; [exact W1|exact W2|exact G1|split; assumption|apply range_b_ok; exact G3|exact X| |].
    + unfold home_b in G5. destruct (places k ms i); auto.
    + apply IH. exact K.
Qed.

(** ** ALICE's stake in POOL, and CAROL's in MALLORY's POOL2, with calls for the other pool in between *)
Definition two_pools : list call :=
  [(at_noon 100, b_initialize_pool env0 POOL MINT (vault_of POOL) PAYER AUTH FILLER DISTR);
   (at_noon 100, b_initialize_pool env0 POOL2 MINT (vault_of POOL2) MALLORY MALLORY MALLORY MALLORY);
   (at_noon 100, b_initialize_mining POOL (mining_of ALICE POOL) PAYER ALICE);
   (at_noon 100, b_initialize_mining POOL (mining_of BOB POOL) PAYER BOB);
   (at_noon 100, b_initialize_mining POOL2 (mining_of CAROL POOL2) PAYER CAROL);
   (at_noon 100, b_initialize_mining POOL2 (mining_of ALICE POOL2) PAYER ALICE)].
Definition a_season (pool who helper auth filler dist source coins : pubkey) : list call :=
  let k := mining_of who pool in let j := mining_of helper pool in
  [(at_noon 101, b_deposit pool k auth k 100 L3M who who);
   (at_noon 101, b_deposit pool j auth k 30 L6M helper who);
   (at_noon 102, b_fill_vault env0 pool MINT (vault_of pool) filler source 1000 (at_noon 104));
   (at_noon 103, b_distribute pool dist);
   (at_noon 104, b_extend pool k auth k L3M L1Y (at_noon 101) 100 5 who who);
   (at_noon 105, b_change pool j auth helper k j helper 30);
   (at_noon 106, b_claim env0 pool MINT (vault_of pool) k who auth coins)].
Definition season_one : list call := a_season POOL ALICE BOB AUTH FILLER DISTR SOURCE ALICE_T.
Definition season_two : list call :=
  (at_noon 100, b_deposit POOL (mining_of BOB POOL) AUTH (mining_of ALICE POOL) 77 LFlex BOB ALICE)
  :: a_season POOL2 CAROL ALICE MALLORY MALLORY MALLORY MALLORY_T CAROL_T
  ++ [(at_noon 107, b_fill_vault env0 POOL MINT (vault_of POOL) FILLER SOURCE 5 (at_noon 107)); (at_noon 107, b_distribute POOL DISTR)].
Definition pool_at (L : ledger) (P : pubkey) : option wpool := match data_of L P with DPool w => Some w | _ => None end.
Example C85_example :
  plays two_pools (at_noon 100) = true /\
  (match pool_at (ledger_after two_pools) POOL, pool_at (ledger_after two_pools) POOL2,
         mining_at (ledger_after two_pools) (mining_of ALICE POOL), mining_at (ledger_after two_pools) (mining_of CAROL POOL2) with
   | Some v, Some w, Some m, Some n => pools_alike v w /\ alike m n /\ p_deposit_auth (wp v) <> p_deposit_auth (wp w) | _, _, _, _ => False end) /\
  (match write_log POOL (mining_of ALICE POOL) (at_noon 100) (ledger_after two_pools) season_one,
         write_log POOL2 (mining_of CAROL POOL2) (at_noon 100) (ledger_after two_pools) season_two with
   | Some (_, L, d, x), Some (_, L', c, y) => d = c /\ length d = 7%nat /\ x = y /\ 0 < x /\
       (match pool_at L POOL, pool_at L' POOL2, mining_at L (mining_of ALICE POOL), mining_at L' (mining_of CAROL POOL2) with
        | Some v, Some w, Some m, Some n => pools_alike v w /\ alike m n /\ m_share (wm m) = 105 * 6 /\ p_index (wp v) > 0 | _, _, _, _ => False end)
   | _, _ => False end).
Proof. vm_compute. repeat split; solve [reflexivity | discriminate]. Qed.
