(** What [refresh] does, in terms of Spec.v, and when it succeeds. *)
From Verif Require Import Base OMap State Spec ResLemmas TreeLemmas AccrualLemmas.

(** the well-formedness of an index history *)
Record hist_ok (ci : tmap) : Prop := {
  h_asc : ascending ci;
  h_grow : growing 0 ci;
  h_aligned : dates (fun k => k mod DAY = 0) ci }.

(** the well-formedness of a mining used below *)
Record min_ok (w : wmining) : Prop := {
  mo_asc : ascending (wm_diffs w);
  mo_vals : values (fun v => 0 <= v) (wm_diffs w);
  mo_index : 0 <= m_index (wm w);
  mo_share : 0 <= m_share (wm w);
  mo_sfo : 0 <= m_sfo (wm w);
  mo_unclaimed : 0 <= m_unclaimed (wm w) }.

Lemma PRECISION_pos : 0 < PRECISION. Proof. reflexivity. Qed.

Lemma update_index_ok ci d s u j u' j' :
  ascending ci -> 0 <= s ->
  mining_update_index ci d s u j = Ok (u', j') ->
  j' = visible d ci /\ j <= j' /\ u' = u + (j' - j) * s / PRECISION.
Proof.
  unfold mining_update_index. intros Ha Hs H.
  rewrite (find_lt_visible d ci 0 Ha) in H. change (visible_from 0 d ci) with (visible d ci) in H.
  inv. split; [reflexivity|]. split; [assumption|].
  assert (0 <= (visible d ci - j) * s / PRECISION)
    by (apply Z.div_pos; [nia|reflexivity]).
  destruct (Z.ltb_spec 0 ((visible d ci - j) * s / PRECISION)); inv; lia.
Qed.

Lemma update_index_succeeds ci d s u j B :
  ascending ci -> 0 <= s -> 0 <= u -> j <= visible d ci -> B < U64 ->
  PRECISION * u + (visible d ci - j) * s <= PRECISION * B ->
  mining_update_index ci d s u j =
    Ok (u + (visible d ci - j) * s / PRECISION, visible d ci).
Proof.
  unfold mining_update_index. intros Ha Hs Hu Hj HB Hle.
  rewrite (find_lt_visible d ci 0 Ha). change (visible_from 0 d ci) with (visible d ci).
  assert (0 <= (visible d ci - j) * s) by nia.
  rewrite (proj2 (safe_sub_ok (visible d ci) j (visible d ci - j))) by lia. cbn [rbind].
  assert (PRECISION * B < U128) by (unfold PRECISION, U128, U64 in *; lia).
  rewrite (proj2 (safe_mul128_ok _ _ ((visible d ci - j) * s)))
    by (split; [unfold PRECISION in *; lia|reflexivity]). cbn [rbind].
  rewrite (proj2 (safe_div_ok _ PRECISION ((visible d ci - j) * s / PRECISION)))
    by (split; [discriminate|reflexivity]). cbn [rbind].
  set (q := (visible d ci - j) * s / PRECISION) in *.
  assert (0 <= q) by (apply Z.div_pos; [assumption|reflexivity]).
  assert (PRECISION * q <= (visible d ci - j) * s) by (apply Z.mul_div_le; reflexivity).
  assert (u + q <= B) by (unfold PRECISION in *; lia).
  rewrite (proj2 (try_u64_ok q q)) by lia. cbn [rbind].
  destruct (Z.ltb_spec 0 q).
  - rewrite (proj2 (safe_add64_ok u q (u + q))) by lia. reflexivity.
  - cbn [rbind]. f_equal. f_equal. lia.
Qed.

Lemma floor_bounds a : 0 <= a - PRECISION * (a / PRECISION) <= PRECISION - 1.
Proof.
  pose proof (Z.mod_pos_bound a PRECISION PRECISION_pos).
  pose proof (Z.div_mod a PRECISION). unfold PRECISION in *. lia.
Qed.

Lemma consume_loop_ok ci b l s u j s' u' j' ds :
  hist_ok ci -> ascending l -> values (fun v => 0 <= v) l -> 0 <= j -> 0 <= s ->
  mining_consume_loop ci b l s u j = Ok (s', u', j', ds) ->
  s' = s - due b l /\ 0 <= s' /\ ds = processed b l /\ j <= j' /\ u <= u' /\
  (let before := accrual j (fun k => s - due k l) ci in
   let rest := accrual j' (fun k => s' - due k (after b l)) ci in
   0 <= before - rest - PRECISION * (u' - u) <= (PRECISION - 1) * Z.of_nat (length ds)).
Proof.
  intros [Ha Hg _].
  revert s u j ds. induction l as [|[d v] r IH]; cbn [mining_consume_loop]; intros s u j ds Hl Hv Hj Hs H.
  - inv. change (after b []) with (@nil (Z * Z)). cbn [due processed length Z.of_nat]. 
    rewrite Z.sub_0_r. cbv zeta. repeat split; try lia.
  - destruct (Z.ltb_spec b d) as [Hb|Hb].
    + inv. rewrite due_later_prefix by assumption.
      rewrite after_all.
      2:{ intros k' v' [E|E]; [congruence|]. apply Hl in E. lia. }
      cbn [processed]. rewrite (proj2 (Z.ltb_lt b d)) by assumption.
      rewrite Z.sub_0_r. cbn [length Z.of_nat]. cbv zeta. repeat split; try lia.
    + inv. apply update_index_ok in E as (-> & Hjv & ->); [|assumption|assumption].
      assert (Hlr : ascending r) by apply Hl.
      assert (Hvr : values (fun v => 0 <= v) r) by (intros ? ? ?; eapply Hv; right; eauto).
      apply IH in E1 as (-> & Hs' & -> & Hj' & Hu' & Hacc); [|assumption|assumption|lia|lia].
      cbn [due processed]. rewrite (proj2 (Z.leb_le d b)) by assumption.
      rewrite (proj2 (Z.ltb_ge b d)) by assumption.
      set (q := (visible d ci - j) * s) in *.
      assert (Hstep : accrual j (fun k => s - ((if d <=? k then v else 0) + due k r)) ci =
                      q + accrual (visible d ci) (fun k => s - v - due k r) ci).
      { unfold accrual. rewrite (accrual_step j _ s 0 d ci Hg).
        - rewrite Z.max_r by lia. fold (visible d ci). unfold q. f_equal.
          apply accrual_ext; [assumption|]. intros k i Hin Hi.
          pose proof (visible_above 0 d ci k i Hg Ha Hin Hi).
          rewrite (proj2 (Z.leb_le d k)) by assumption. lia.
        - assumption.
        - intros k i _ Hk _. rewrite (proj2 (Z.leb_gt d k)) by assumption.
          rewrite due_nil_below; [lia|]. intros k' v' Hin. apply Hl in Hin. lia. }
      pose proof (floor_bounds q).
      assert (0 <= q) by (unfold q; nia).
      assert (0 <= q / PRECISION) by (apply Z.div_pos; [assumption|reflexivity]).
      cbv zeta in Hacc |- *.
      replace (after b ((d, v) :: r)) with (after b r).
      2:{ unfold after. cbn [filter fst]. rewrite (proj2 (Z.ltb_ge b d)) by assumption. reflexivity. }
      cbn [due] in Hstep |- *. rewrite Hstep.
      cbn [length]. rewrite Nat2Z.inj_succ.
      replace (s - (v + due b r)) with (s - v - due b r) by lia.
      unfold PRECISION in *. repeat split; lia.
Qed.

Lemma consume_loop_succeeds ci b l s u j B :
  hist_ok ci -> ascending l -> values (fun v => 0 <= v) l -> 0 <= j -> 0 <= u ->
  total l <= s -> B < U64 ->
  dates (fun d => d <= b -> j <= visible d ci) l ->
  PRECISION * u + accrual j (fun k => s - due k l) ci <= PRECISION * B ->
  exists x, mining_consume_loop ci b l s u j = Ok x.
Proof.
  intros [Ha Hg Hal].
  revert s u j. induction l as [|[d v] r IH]; cbn [mining_consume_loop]; intros s u j Hl Hv Hj Hu Hs HB Hd Hacc.
  - eauto.
  - destruct (Z.ltb_spec b d) as [Hb|Hb]; [eauto|].
    assert (Hlr : ascending r) by apply Hl.
    assert (Hvr : values (fun v => 0 <= v) r) by (intros ? ? ?; eapply Hv; right; eauto).
    pose proof (Hv d v (or_introl eq_refl)) as Hv0. cbv beta in Hv0.
    pose proof (due_bounds b r Hvr) as Hdr.
    cbn [total] in Hs.
    pose proof (Hd d v (or_introl eq_refl) Hb) as Hjv.
    set (q := (visible d ci - j) * s) in *.
    assert (Hstep : accrual j (fun k => s - due k ((d, v) :: r)) ci =
                    q + accrual (visible d ci) (fun k => s - v - due k r) ci).
    { cbn [due]. unfold accrual. rewrite (accrual_step j _ s 0 d ci Hg).
      - rewrite Z.max_r by lia. fold (visible d ci). unfold q. f_equal.
        apply accrual_ext; [assumption|]. intros k i Hin Hi.
        pose proof (visible_above 0 d ci k i Hg Ha Hin Hi).
        rewrite (proj2 (Z.leb_le d k)) by assumption. lia.
      - assumption.
      - intros k i _ Hk _. rewrite (proj2 (Z.leb_gt d k)) by assumption.
        rewrite due_nil_below; [lia|]. intros k' v' Hin. apply Hl in Hin. lia. }
    rewrite Hstep in Hacc.
    assert (Hnn : 0 <= accrual (visible d ci) (fun k => s - v - due k r) ci).
    { apply accrual_nonneg; [assumption|]. intros k i _ _. pose proof (due_bounds k r Hvr). lia. }
    rewrite (update_index_succeeds ci d s u j B) by (assumption || lia). cbn [rbind].
    rewrite (proj2 (safe_sub_ok s v (s - v))) by lia. cbn [rbind].
    fold q. pose proof (floor_bounds q).
    assert (0 <= q / PRECISION) by (apply Z.div_pos; [unfold q; nia|reflexivity]).
    destruct (IH (s - v) (u + q / PRECISION) (visible d ci)) as [[[[t' u'] i'] ds] E];
      try assumption; try lia.
    + intros d' v' Hin _. apply visible_mono; [assumption|].
      apply Hl in Hin. lia.
    + rewrite E. cbn [rbind]. eauto.
Qed.

(** a refresh at [ts] does not look at days after [ts] *)
Lemma eff_before_ts ci ts l s k i :
  dates (fun k => k mod DAY = 0) ci -> In (k, i) ci -> k < ts ->
  s - due k (after (bod ts) l) = s.
Proof.
  intros Hal Hin Hk. rewrite due_nil_below; [lia|].
  intros d v Hd. apply in_after in Hd as [_ Hd].
  pose proof (Hal _ _ Hin). cbv beta in *.
  pose proof (bod_mono k ts). rewrite (bod_idem k) in * by assumption. lia.
Qed.

(** The effect of a refresh. [n] is the number of schedule entries consumed. *)
Lemma refresh_ok ts ci w w' :
  hist_ok ci -> min_ok w -> refresh ts ci w = Ok w' ->
  let m := wm w in let m' := wm w' in
  let n := Z.of_nat (length (processed (bod ts) (wm_diffs w))) in
  wm_diffs w' = after (bod ts) (wm_diffs w) /\
  m_share m' = m_share m - due (bod ts) (wm_diffs w) /\
  m_index m' = visible ts ci /\ m_index m <= m_index m' /\
  m_sfo m' = m_sfo m /\ m_pool m' = m_pool m /\ m_owner m' = m_owner m /\
  m_mint m' = m_mint m /\ m_bump m' = m_bump m /\ m_type m' = m_type m /\
  m_unclaimed m <= m_unclaimed m' /\ 0 <= m_share m' /\
  m_share m + m_sfo m < U64 /\
  0 <= owed ci w - owed ci w' <= (PRECISION - 1) * (n + 1).
Proof.
  intros Hh [Ha Hv Hj Hs Hf Hu] H. unfold refresh in H. cbv zeta in H. cbv zeta.
  inv. rename E into Hov. rename E0 into Hc. rename E1 into Hup. rename E2 into Hsub.
  unfold mining_consume in Hc. inv. rename E into Hl.
  apply consume_loop_ok in Hl as (-> & Hs' & -> & Hj' & Hu' & Hacc);
    [|assumption|assumption|assumption|lia|lia].
  rewrite remove_processed by assumption.
  apply update_index_ok in Hup as (-> & Hjv & ->); [|apply Hh|assumption].
  cbn [wm wm_diffs set_share set_rewards m_pool m_owner m_mint m_index m_share m_unclaimed m_sfo m_bump m_type].
  cbv zeta in Hacc |- *.
  set (d := wm_diffs w) in *. set (m := wm w) in *. set (b := bod ts) in *.
  set (s := m_share m + m_sfo m) in *.
  set (q := (visible ts ci - z) * (s - due b d)) in *.
  assert (0 <= q) by (unfold q; nia).
  assert (0 <= q / PRECISION) by (apply Z.div_pos; [assumption|reflexivity]).
  pose proof (floor_bounds q).
  assert (Hstep : accrual z (fun k => s - due b d - due k (after b d)) ci =
                  q + accrual (visible ts ci) (fun k => s - due b d - due k (after b d)) ci).
  { unfold accrual. rewrite (accrual_step z _ (s - due b d) 0 ts ci (h_grow _ Hh)).
    - rewrite Z.max_r by lia. reflexivity.
    - assumption.
    - intros k i Hin Hk _. apply (eff_before_ts ci ts d _ k i); [apply Hh|assumption|assumption]. }
  assert (Hsh : m_share m = s - m_sfo m) by (unfold s; lia).
  repeat split; try reflexivity; try lia.
  - unfold owed. cbn [wm wm_diffs set_share set_rewards m_index m_unclaimed]. fold m.
    replace (accrual (visible ts ci) (eff _) ci)
      with (accrual (visible ts ci) (fun k => s - due b d - due k (after b d)) ci).
    2:{ apply accrual_ext; [apply Hh|]. intros. unfold eff. cbn. lia. }
    replace (accrual (m_index m) (eff w) ci) with (accrual (m_index m) (fun k => s - due k d) ci).
    2:{ apply accrual_ext; [apply Hh|]. intros. unfold eff, s, d, m. cbn. lia. }
    rewrite Hstep in Hacc. unfold PRECISION in *. lia.
  - unfold owed. cbn [wm wm_diffs set_share set_rewards m_index m_unclaimed]. fold m.
    replace (accrual (visible ts ci) (eff _) ci)
      with (accrual (visible ts ci) (fun k => s - due b d - due k (after b d)) ci).
    2:{ apply accrual_ext; [apply Hh|]. intros. unfold eff. cbn. lia. }
    replace (accrual (m_index m) (eff w) ci) with (accrual (m_index m) (fun k => s - due k d) ci).
    2:{ apply accrual_ext; [apply Hh|]. intros. unfold eff, s, d, m. cbn. lia. }
    rewrite Hstep in Hacc. unfold PRECISION in *. lia.
Qed.

Lemma update_index_index ci d s u j u' j' :
  ascending ci -> mining_update_index ci d s u j = Ok (u', j') -> j' = visible d ci.
Proof.
  unfold mining_update_index. intros Ha H.
  rewrite (find_lt_visible d ci 0 Ha) in H. inv. reflexivity.
Qed.

Lemma consume_loop_index ci ts l s u j s' u' j' ds :
  hist_ok ci -> ascending l -> j <= visible ts ci ->
  mining_consume_loop ci (bod ts) l s u j = Ok (s', u', j', ds) -> j' <= visible ts ci.
Proof.
  intros Hh. revert s u j ds.
  induction l as [|[d v] r IH]; cbn [mining_consume_loop]; intros s u j ds Ha Hj E.
  - inv. assumption.
  - destruct (Z.ltb_spec (bod ts) d); inv; [assumption|].
    apply update_index_index in E0 as ->; [|apply Hh].
    eapply IH; [apply Ha| |eassumption].
    apply visible_mono; [apply Hh|]. pose proof (bod_bounds ts). lia.
Qed.

(** When a refresh succeeds. *)
Lemma refresh_succeeds ts ci w B :
  hist_ok ci -> min_ok w ->
  m_share (wm w) + m_sfo (wm w) < U64 ->
  total (wm_diffs w) <= m_share (wm w) ->
  dates (fun d => d <= bod ts -> m_index (wm w) <= visible d ci) (wm_diffs w) ->
  m_index (wm w) <= visible ts ci ->
  B < U64 -> owed ci w <= PRECISION * B ->
  exists w', refresh ts ci w = Ok w'.
Proof.
  intros Hh [Ha Hv Hj Hs Hf Hu] Hov Htot Hd Hts HB Howed.
  unfold refresh. cbv zeta. set (m := wm w) in *. set (d := wm_diffs w) in *.
  rewrite (proj2 (safe_add64_ok (m_share m) (m_sfo m) (m_share m + m_sfo m))) by lia. cbn [rbind].
  assert (Hacc : PRECISION * m_unclaimed m + accrual (m_index m) (fun k => m_share m + m_sfo m - due k d) ci
                 <= PRECISION * B) by exact Howed.
  destruct (consume_loop_succeeds ci (bod ts) d (m_share m + m_sfo m) (m_unclaimed m) (m_index m) B)
    as [[[[s1 u1] j1] ds] E]; try assumption; try lia.
  unfold mining_consume. rewrite E. cbn [rbind].
  pose proof (due_bounds (bod ts) d Hv) as Hdb.
  assert (Hj1 : j1 <= visible ts ci).
  { eapply consume_loop_index; eauto. }
  apply consume_loop_ok in E as (-> & Hs' & -> & Hj' & Hu' & Hle);
    [|assumption|assumption|assumption|assumption|lia].
  cbv zeta in Hle.
  set (s1 := m_share m + m_sfo m - due (bod ts) d) in *.
  assert (Hstep : accrual j1 (fun k => s1 - due k (after (bod ts) d)) ci =
                  (visible ts ci - j1) * s1
                  + accrual (visible ts ci) (fun k => s1 - due k (after (bod ts) d)) ci).
  { unfold accrual. rewrite (accrual_step j1 _ s1 0 ts ci (h_grow _ Hh)).
    - rewrite Z.max_r by lia. reflexivity.
    - assumption.
    - intros k i Hin Hk _. apply (eff_before_ts ci ts d _ k i); [apply Hh|assumption|assumption]. }
  assert (Hnn : 0 <= accrual (visible ts ci) (fun k => s1 - due k (after (bod ts) d)) ci).
  { apply accrual_nonneg; [apply Hh|]. intros k i _ _.
    pose proof (due_bounds k _ (values_after _ (bod ts) _ Hv)).
    rewrite total_after in *. unfold s1. lia. }
  rewrite (update_index_succeeds ci ts s1 u1 j1 B);
    [|apply Hh|assumption|lia|assumption|assumption|unfold PRECISION in *; lia].
  cbn [rbind].
  rewrite (proj2 (safe_sub_ok s1 (m_sfo m) (s1 - m_sfo m))) by (unfold s1; lia).
  cbn [rbind]. eauto.
Qed.
