(** Transactions and histories are the same thing. *)
From stdpp Require Import gmap.
From Verif Require Import Base OMap State Ledger Program Codec CodecLemmas History HistoryLemmas LedgerLemmas LedgerSpec
  HistoryThms ReachThms PowerSpec Powers Tx.

(** where an event of a history comes from *)
Definition comes_from (txs : list tx) (ev : event) : Prop :=
  match ev with
  | EvIx ts ms i => exists items, In (ts, items) txs /\ In (Call ms (encode i)) items
  | EvExt ts => exists items, In (ts, items) txs
  end.

Lemma comes_sub a b evs : (forall x, In x a -> In x b) -> Forall (comes_from a) evs -> Forall (comes_from b) evs.
Proof.
  intros H F. rewrite Forall_forall in *. intros ev Hev. specialize (F ev Hev).
  destruct ev; [destruct F as (it & A & B)|destruct F as (it & A)]; cbn; eauto.
Qed.
Lemma comes_more ts x rest evs : Forall (comes_from [(ts, rest)]) evs -> Forall (comes_from [(ts, x :: rest)]) evs.
Proof.
  intros F. rewrite Forall_forall in *. intros ev Hev. specialize (F ev Hev).
  destruct ev; [destruct F as (it & [A|[]] & B)|destruct F as (it & [A|[]])]; injection A as <- <-; exists (x :: rest);
    [split; [left; reflexivity|right; assumption]|left; reflexivity].
Qed.

Section env.
Context (e : env) (Henv : env_ok e).

Lemma external_refl now L : ledger_ok e now L -> external e L L.
Proof.
  intros H k. destruct (H k) as [A _]. split; [assumption|]. split; [intros _; left; split; [reflexivity|split; [reflexivity|lia]]|].
  intros N E. contradiction.
Qed.

Lemma run_trans now L evs now1 L1 evs' now2 L2 :
  run e now L evs now1 L1 -> run e now1 L1 evs' now2 L2 -> run e now L (evs ++ evs') now2 L2.
Proof. intros R R'. induction R; [assumption|]. cbn. econstructor; eauto. Qed.

Lemma performs_run ts L items L' : performs e ts L items L' -> is_u64 ts ->
  exists evs, run e ts L evs ts L' /\ Forall (comes_from [(ts, items)]) evs.
Proof.
  intros P Hu. induction P as [L|ms data L L1 r rest L' Hb X P IH|L L1 rest L' X P IH].
  - exists []. split; constructor.
  - destruct IH as (evs & R & F). unfold exec_bytes in X. destruct (decode data) as [i|] eqn:E; [|discriminate].
    apply canonical in E as [-> Hi]; [|assumption].
    exists (EvIx ts ms i :: evs). split.
    + econstructor; [|exact R]. eapply step_ix; [lia|assumption|assumption|exact X].
    + constructor; [exists (Call ms (encode i) :: rest); split; left; reflexivity|].
      apply (comes_more _ _ _ _ F).
  - destruct IH as (evs & R & F). exists (EvExt ts :: evs). split.
    + econstructor; [|exact R]. eapply step_ext; [lia|assumption|exact X].
    + constructor; [exists (Other :: rest); left; reflexivity|]. apply (comes_more _ _ _ _ F).
Qed.

Lemma settles_run now L t L' : ledger_ok e now L -> settles e now L t L' ->
  exists evs, run e now L evs (fst t) L' /\ Forall (comes_from [t]) evs.
Proof.
  intros HL S. destruct S as [ts items L' Hts Hu P|ts items Hts Hu]; cbn [fst].
  - destruct (performs_run _ _ _ _ P Hu) as (evs & R & F). exists (EvExt ts :: evs). split.
    + econstructor; [|exact R]. eapply step_ext; [assumption|assumption|]. eapply external_refl. exact HL.
    + constructor; [exists items; left; reflexivity|assumption].
  - exists [EvExt ts]. split.
    + econstructor; [|constructor]. eapply step_ext; [assumption|assumption|]. eapply external_refl. exact HL.
    + constructor; [exists items; left; reflexivity|constructor].
Qed.

Lemma chain_run now L txs now' L' : chain e now L txs now' L' -> 0 <= now -> ledger_ok e now L ->
  exists evs, run e now L evs now' L' /\ Forall (comes_from txs) evs.
Proof.
  intros C. induction C as [now L|now L t L1 txs now' L' S C IH]; intros Hn HL.
  - exists []. split; constructor.
  - destruct (settles_run _ _ _ _ HL S) as (evs & R & F).
    destruct (run_ok e Henv _ _ _ _ _ Hn R HL) as [HL1 Hn1].
    destruct (IH ltac:(lia) HL1) as (evs' & R' & F'). exists (evs ++ evs'). split; [eapply run_trans; eassumption|].
    apply Forall_app. split.
    + apply (comes_sub [t]); [|assumption]. intros x [<-|[]]. left. reflexivity.
    + apply (comes_sub txs); [|assumption]. intros x Hx. right. exact Hx.
Qed.

(** a history, one transaction per event *)
Definition tx_of (ev : event) : tx :=
  match ev with EvIx ts ms i => (ts, [Call ms (encode i)]) | EvExt ts => (ts, [Other]) end.

Lemma run_chain now L evs now' L' : run e now L evs now' L' -> chain e now L (map tx_of evs) now' L'.
Proof.
  intros R. induction R as [|now L ev L1 evs now' L' S R IH]; [constructor|].
  cbn [map]. eapply ch_cons; [|destruct ev; exact IH].
  destruct S as [ts ms i L1 r Hts Hu Hr X|ts L1 Hts Hu X]; cbn [tx_of]; apply st_done; try assumption.
  - eapply pf_call; [apply encode_bytes| |constructor].
    unfold exec_bytes. rewrite round_trip by assumption. exact X.
  - eapply pf_other; [exact X|constructor].
Qed.

Lemma reached_chain now L :
  reached e now L <-> exists L0 txs, genesis e L0 /\ chain e 0 L0 txs now L.
Proof.
  split.
  - intros (L0 & evs & G & R). exists L0, (map tx_of evs). split; [assumption|]. apply run_chain. assumption.
  - intros (L0 & txs & G & C). assert (ledger_ok e 0 L0) by (apply genesis_ok; [lia|assumption]).
    destruct (chain_run _ _ _ _ _ C (Z.le_refl 0) H) as (evs & R & _). exists L0, evs. auto.
Qed.

(** ** All or nothing *)
Lemma performs_app ts L a b L' :
  performs e ts L (a ++ b) L' <-> exists M, performs e ts L a M /\ performs e ts M b L'.
Proof.
  split.
  - revert L. induction a as [|x a IH]; cbn [app]; intros L H.
    + exists L. split; [constructor|assumption].
    + inversion H; subst;
        match goal with P : performs _ _ _ (a ++ b) _ |- _ => destruct (IH _ P) as (M & A & B) end;
        (exists M; split; [econstructor; eassumption|assumption]).
  - intros (M & A & B). induction A; cbn [app]; [assumption|econstructor; eauto|econstructor; eauto].
Qed.

Lemma all_or_nothing now ts L pre ms data post L' :
  (forall M, performs e ts L pre M -> exists x, exec_bytes e ts ms data M = Err x) ->
  settles e now L (ts, pre ++ Call ms data :: post) L' -> L' = L.
Proof.
  intros H S. inversion S; subst; [|reflexivity].
  match goal with P : performs _ _ _ (_ ++ _) _ |- _ => apply performs_app in P as (M & A & B) end. inversion B; subst. destruct (H _ A) as (x & E). congruence.
Qed.
Lemma junk_tx now ts L pre ms data post L' :
  (forall i, ix_in_range i -> data <> encode i) -> Forall byte data ->
  settles e now L (ts, pre ++ Call ms data :: post) L' -> L' = L.
Proof.
  intros H Hb. apply all_or_nothing. intros M _. exists EBorsh. apply junk_rejected; assumption.
Qed.

(** ** Signatures *)
Lemma silent_chain k txs evs : Forall (tx_silent k) txs -> Forall (comes_from txs) evs -> Forall (silent k) evs.
Proof.
  intros Hs. rewrite !Forall_forall in *. intros F ev Hev. specialize (F ev Hev).
  destruct ev as [ts ms i|ts]; [|exact I]. destruct F as (items & H1 & H2).
  cbn. intros Hk. exact (Hs _ H1 ms (encode i) H2 Hk).
Qed.
Lemma rewards_chain now L txs now' L' k m :
  reached e now L -> chain e now L txs now' L' -> is_mining e L k m -> 0 < lamports_of L k ->
  Forall (tx_silent (m_owner (wm m))) txs ->
  exists m', is_mining e L' k m' /\ m_owner (wm m') = m_owner (wm m) /\ m_pool (wm m') = m_pool (wm m) /\
    m_unclaimed (wm m) <= m_unclaimed (wm m') /\ lamports_of L k <= lamports_of L' k.
Proof.
  intros HL C Hm Hl Hs. destruct (reached_ok e Henv _ _ HL) as (A & _ & B).
  destruct (chain_run _ _ _ _ _ C B A) as (evs & R & F).
  eapply rewards_reached; try eassumption. eapply silent_chain; eassumption.
Qed.
Lemma pool_chain now L txs now' L' k w :
  reached e now L -> chain e now L txs now' L' -> is_pool e L k w -> p_type (wp w) = TYPE_POOL -> 0 < lamports_of L k ->
  (forall ro, Forall (tx_silent (holder w ro)) txs) -> is_pool e L' k w.
Proof.
  intros HL C Hk Ht Hl Hs. destruct (reached_ok e Henv _ _ HL) as (A & _ & B).
  destruct (chain_run _ _ _ _ _ C B A) as (evs & R & F).
  eapply pool_reached; try eassumption. intros ro. eapply silent_chain; [apply Hs|eassumption].
Qed.
End env.

Lemma chain_history e (Henv : env_ok e) now L txs now' L' :
  reached e now L -> chain e now L txs now' L' ->
  exists evs, run e now L evs now' L' /\ forall ev, In ev evs -> comes_from txs ev.
Proof.
  intros HL C. destruct (reached_ok e Henv _ _ HL) as (A & _ & B).
  destruct (chain_run e Henv _ _ _ _ _ C B A) as (evs & R & F). exists evs. split; [assumption|].
  rewrite Forall_forall in F. exact F.
Qed.

(** the calls of a transaction one after the other, computed *)
Fixpoint all_calls (e : env) (ts : Z) (l : list (list meta * bytes)) (L : ledger) : res ledger :=
  match l with
  | [] => Ok L
  | (ms, data) :: r => let? (L1, _) := exec_bytes e ts ms data L in all_calls e ts r L1
  end.
Lemma all_calls_iff e ts l : Forall (fun c => Forall byte (snd c)) l -> forall L L',
  performs e ts L (map (fun c => Call (fst c) (snd c)) l) L' <-> all_calls e ts l L = Ok L'.
Proof.
  intros Hb. induction Hb as [|[ms data] l Hb _ IH]; cbn [map fst snd all_calls]; intros L L'.
  - split; [intros H; inversion H; reflexivity|intros H; injection H as ->; constructor].
  - split.
    + intros H. inversion H; subst.
      match goal with X : exec_bytes _ _ _ _ _ = Ok _ |- _ => rewrite X end. cbn. apply IH. assumption.
    + destruct (exec_bytes e ts ms data L) as [[L1 x]|] eqn:X; [|discriminate]. cbn. intros H.
      econstructor; [exact Hb|exact X|]. apply IH. exact H.
Qed.
