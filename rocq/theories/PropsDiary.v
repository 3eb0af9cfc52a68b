(** C84: what a mining holds and is paid depends on its diary only. *)
From stdpp Require Import gmap.
From Verif Require Import Base OMap State Spec EffectSpec Ledger Program Clients LedgerLemmas LedgerSpec
  CodecLemmas History Scenario Attacks HistoryThms ReachThms FreezeSpec PropsFreeze CapSpec IncomeSpec DiarySpec Diary.

(** Two histories, with whatever calls by whomever; the first with the mining [k1], the second with
    [k2], of any owners in any pools.  If the diaries are the same and the minings begin alike, they
    end alike, and the same amount has been paid for both. *)
Theorem C84_alike : forall e1 e2, env_ok e1 -> env_ok e2 -> forall k1 k2 now1 L1 now1' L1' now2 L2 now2' L2' d x y m n m' n',
  reached e1 now1 L1 -> reached e2 now2 L2 ->
  diary e1 k1 now1 L1 now1' L1' d x -> diary e2 k2 now2 L2 now2' L2' d y ->
  is_mining e1 L1 k1 m -> is_mining e2 L2 k2 n -> alike m n ->
  is_mining e1 L1' k1 m' -> is_mining e2 L2' k2 n' -> x = y /\ alike m' n'.
Proof. exact same_diary. Qed.
Print Assumptions C84_alike.

(** a mining that begins with the same data ends with the same data *)
Theorem C84_same : forall e1 e2, env_ok e1 -> env_ok e2 -> forall k1 k2 now1 L1 now1' L1' now2 L2 now2' L2' d x y m m' n',
  reached e1 now1 L1 -> reached e2 now2 L2 ->
  diary e1 k1 now1 L1 now1' L1' d x -> diary e2 k2 now2 L2 now2' L2' d y ->
  is_mining e1 L1 k1 m -> is_mining e2 L2 k2 m ->
  is_mining e1 L1' k1 m' -> is_mining e2 L2' k2 n' -> x = y /\ m' = n'.
Proof. exact same_diary_exact. Qed.
Print Assumptions C84_same.

(** ** Diaries of given calls *)
Definition mining_b (k : pubkey) (L : ledger) : bool :=
  match data_of L k with DMining m => (owner_of L k =? program_id env0) && (m_type (wm m) =? 2) | _ => false end.
Lemma mining_b_ok k L : mining_b k L = true -> open env0 k L.
Proof.
  unfold mining_b. destruct (data_of L k) as [| | |m| | |] eqn:E; try discriminate. intros H. apply andb_true_iff in H as [H1 H2].
  apply Z.eqb_eq in H1, H2. exists m. split; [split; assumption|assumption].
Qed.
Fixpoint keep (k : pubkey) (now : Z) (L : ledger) (l : list call) : option (Z * ledger * list line * Z) :=
  if mining_b k L then
    match l with
    | [] => Some (now, L, [], 0)
    | (ts, (ms, i)) :: r =>
        if (now <=? ts) && u64_b ts && range_b i then
          match exec env0 ts ms i L with
          | Ok (L1, a) =>
              match keep k ts L1 r with
              | Some (n, L2, d, x) => Some (n, L2, note k ts ms i L ++ d, takes k ms i a + x)
              | None => None
              end
          | Err _ => None
          end
        else None
    end
  else None.
Lemma keep_ok k l : forall now L now' L' d x, keep k now L l = Some (now', L', d, x) -> diary env0 k now L now' L' d x.
Proof.
  induction l as [|[ts [ms i]] r IH]; cbn [keep]; intros now L now' L' d x H;
    (destruct (mining_b k L) eqn:W; [apply mining_b_ok in W|discriminate]).
  - injection H as <- <- <- <-. constructor. exact W.
  - destruct (_ && _ && _) eqn:G; [|discriminate]. apply andb_true_iff in G as [G G3]. apply andb_true_iff in G as [G1 G2].
    apply Z.leb_le in G1. unfold u64_b in G2. apply andb_true_iff in G2 as [G2 G4]. apply Z.leb_le in G2. apply Z.ltb_lt in G4.
    destruct (exec _ _ _ _ _) as [[L1 a]|] eqn:X; [|discriminate].
    destruct (keep k ts L1 r) as [[[[n L2] d2] x2]|] eqn:K; [|discriminate]. injection H as <- <- <- <-.
    eapply di_ix; [exact W|exact G1|split; assumption|apply range_b_ok; exact G3|exact X|]. apply IH. exact K.
Qed.

(** ** ALICE in one history, CAROL in another, in which MALLORY plays with a pool of their own and the
    other stakes are spread differently *)
Definition opened : list call :=
  [(at_noon 100, b_initialize_pool env0 POOL MINT (vault_of POOL) PAYER AUTH FILLER DISTR);
   (at_noon 100, b_initialize_mining POOL (mining_of ALICE POOL) PAYER ALICE);
   (at_noon 100, b_initialize_mining POOL (mining_of BOB POOL) PAYER BOB);
   (at_noon 100, b_initialize_mining POOL (mining_of CAROL POOL) PAYER CAROL)].
Definition shared_part (who helper coins : pubkey) : list call :=
  [(at_noon 101, b_deposit POOL (mining_of who POOL) AUTH (mining_of who POOL) 100 L3M who who);
   (at_noon 101, b_deposit POOL (mining_of helper POOL) AUTH (mining_of who POOL) 300 LFlex helper who);
   (at_noon 102, b_fill_vault env0 POOL MINT (vault_of POOL) FILLER SOURCE 50000 (at_noon 110));
   (at_noon 103, b_distribute POOL DISTR);
   (at_noon 104, b_claim env0 POOL MINT (vault_of POOL) (mining_of who POOL) who AUTH coins);
   (at_noon 105, b_withdraw POOL (mining_of helper POOL) AUTH (mining_of who POOL) 50 helper who);
   (at_noon 106, b_slash AUTH POOL (mining_of who POOL) who 10 10 None)].
Definition one_history : list call :=
  (at_noon 100, b_deposit POOL (mining_of CAROL POOL) AUTH (mining_of CAROL POOL) 200 LFlex CAROL CAROL)
  :: shared_part ALICE BOB ALICE_T.
Definition other_history : list call :=
  [(at_noon 100, b_deposit POOL (mining_of BOB POOL) AUTH (mining_of BOB POOL) 150 LFlex BOB BOB);
   (at_noon 100, b_initialize_pool env0 POOL2 MINT (vault_of POOL2) MALLORY MALLORY MALLORY MALLORY);
   (at_noon 100, b_deposit POOL (mining_of ALICE POOL) AUTH (mining_of ALICE POOL) 50 LFlex ALICE ALICE);
   (at_noon 100, b_initialize_mining POOL2 (mining_of MALLORY POOL2) MALLORY MALLORY)]
  ++ shared_part CAROL ALICE CAROL_T
  ++ [(at_noon 107, b_distribute POOL DISTR)].
Definition diary_of (k : pubkey) (l : list call) : option (list line * Z) :=
  match keep k (at_noon 100) (ledger_after opened) l with Some (_, _, d, x) => Some (d, x) | None => None end.
Example C84_example :
  plays opened (at_noon 100) = true /\
  (match mining_at (ledger_after opened) (mining_of ALICE POOL), mining_at (ledger_after opened) (mining_of CAROL POOL) with
   | Some m, Some n => alike m n /\ m_owner (wm m) <> m_owner (wm n) | _, _ => False end) /\
  (match diary_of (mining_of ALICE POOL) one_history, diary_of (mining_of CAROL POOL) other_history with
   | Some (d, x), Some (c, y) => d = c /\ length d = 5%nat /\ x = y /\ 0 < x | _, _ => False end) /\
  (match mining_at (ledger_after (opened ++ one_history)) (mining_of ALICE POOL),
         mining_at (ledger_after (opened ++ other_history)) (mining_of CAROL POOL) with
   | Some m, Some n => alike m n /\ m_share (wm m) = 190 /\ m_sfo (wm m) = 250 /\ m_index (wm m) > 0 | _, _ => False end).
Proof. vm_compute. repeat split; solve [reflexivity | discriminate]. Qed.
