(** * Proofs about sampling, distributions and population splits. *)

From Coq Require Import List ZArith QArith Qround Bool Lia Lqa Arith.
From Verif Require Import Prelude PreludeFacts SpecBase SpecBaseFacts Sampling_Model Sampling_Spec.
Import ListNotations.

(** ** Monte Carlo *)

Lemma mc_one_total : forall cdf r, cdf <> [] -> exists i, mc_one cdf r = Ok i.
Proof.
  intros cdf r H. unfold mc_one, argmax_bool.
  destruct (map (fun c => Qltb r c) cdf) eqn:E; eauto.
  destruct cdf; [congruence|discriminate].
Qed.

Lemma mc_one_spec : forall cdf r i, mc_one cdf r = Ok i ->
  (i < length cdf)%nat /\ (designates cdf r i \/ (i = 0%nat /\ exhausted cdf r)).
Proof.
  intros cdf r i H. unfold mc_one, argmax_bool in H.
  destruct cdf as [|c0 cdf']; [simpl in H; discriminate|].
  set (F := c0 :: cdf') in *.
  destruct (map (fun c => Qltb r c) F) as [|b t] eqn:E; [discriminate|].
  rewrite <- E in H.
  destruct (first_true (map (fun c => Qltb r c) F)) as [k|] eqn:Ef; injection H as <-.
  - destruct (first_true_some _ _ Ef) as [H1 H2].
    rewrite nth_error_map in H1. destruct (nth_error F k) as [c|] eqn:Ek; simpl in H1; [|discriminate].
    injection H1 as H1. apply Qltb_lt in H1. split; [apply nth_error_Some; congruence|].
    left. exists c. split; [exact Ek|]. split; [exact H1|].
    intros j d Hj Hd. specialize (H2 j Hj). rewrite nth_error_map in H2. unfold at_ in Hd.
    rewrite Hd in H2; simpl in H2. injection H2 as H2. apply Qltb_ge in H2; exact H2.
  - split; [unfold F; simpl; lia|]. right; split; [reflexivity|].
    apply first_true_none in Ef. intros j d Hd. rewrite Forall_forall in Ef.
    apply Qltb_ge. apply Ef. apply in_map_iff. exists d; split; [reflexivity|]. eapply at_in; eauto.
Qed.

Lemma designates_unique : forall F r i j, designates F r i -> designates F r j -> i = j.
Proof.
  intros F r i j (c & Hc & Hr & Hi) (d & Hd & Hr' & Hj).
  destruct (lt_eq_lt_dec i j) as [[H|H]|H]; auto.
  - specialize (Hj i c H Hc). lra.
  - specialize (Hi j d H Hd). lra.
Qed.

Lemma designates_not_exhausted : forall F r i, designates F r i -> ~ exhausted F r.
Proof. intros F r i (c & Hc & Hr & _) He. specialize (He i c Hc). lra. Qed.

Lemma mc_one_iff : forall cdf r i, cdf <> [] ->
  mc_one cdf r = Ok i <->
  (designates cdf r i \/ (i = 0%nat /\ exhausted cdf r)).
Proof.
  intros cdf r i Hne; split; intro H.
  - apply mc_one_spec in H; tauto.
  - destruct (mc_one_total cdf r Hne) as [k Hk]. rewrite Hk. f_equal.
    apply mc_one_spec in Hk as [_ Hk].
    destruct H as [H|[-> H]], Hk as [Hk|[-> Hk]]; auto.
    + eapply designates_unique; eauto.
    + exfalso; eapply designates_not_exhausted; eauto.
    + exfalso; eapply designates_not_exhausted; eauto.
Qed.

Lemma mc_from_1d_cdf_all : forall cdf draws, cdf <> [] ->
  exists out, mc_from_1d_cdf cdf draws = Ok out /\ length out = length draws /\
  forall k r, at_ draws k r -> exists i, at_ out k i /\ (i < length cdf)%nat /\
     (designates cdf r i \/ (i = 0%nat /\ exhausted cdf r)).
Proof.
  intros cdf draws Hne. unfold mc_from_1d_cdf. destruct cdf as [|c cdf']; [congruence|].
  destruct (mapM_total _ _ (mc_one (c :: cdf')) draws) as [out Hout].
  { intros x _. apply mc_one_total; auto. }
  exists out. split; [exact Hout|]. apply mapM_ok in Hout as [Hl Hn]. split; [exact Hl|].
  intros k r Hk. destruct (Hn k r Hk) as [i [Hi Hm]]. exists i. split; [exact Hi|].
  apply mc_one_spec in Hm. exact Hm.
Qed.

Lemma mc_from_cdf_all : forall rows draws,
  Forall (fun row => row <> []) rows -> length draws = length rows ->
  exists out, mc_from_cdf rows draws = Ok out /\ length out = length rows /\
  forall k row r, at_ rows k row -> at_ draws k r -> exists i, at_ out k i /\ (i < length row)%nat /\
     (designates row r i \/ (i = 0%nat /\ exhausted row r)).
Proof.
  intros rows draws Hne Hlen. unfold mc_from_cdf.
  destruct (mapM_total _ _ (fun rd : list Q * Q => mc_one (fst rd) (snd rd)) (combine rows draws)) as [out Hout].
  { intros [row r] Hin; simpl. apply in_combine_l in Hin. rewrite Forall_forall in Hne.
    apply mc_one_total; auto. }
  exists out. split; [exact Hout|]. apply mapM_ok in Hout as [Hl Hn].
  split; [rewrite Hl, combine_length; lia|].
  intros k row r Hk Hr.
  assert (Hc : nth_error (combine rows draws) k = Some (row, r)).
  { clear -Hk Hr. revert draws k Hk Hr. induction rows as [|x rows IH]; intros draws k Hk Hr; unfold at_ in *.
    - destruct k; discriminate.
    - destruct draws as [|y draws]; [destruct k; discriminate|].
      destruct k as [|k]; simpl in *; [congruence|]. apply IH; auto. }
  destruct (Hn k (row, r) Hc) as [i [Hi Hm]]. exists i; split; [exact Hi|].
  apply mc_one_spec in Hm. exact Hm.
Qed.

(** In a non-decreasing row the designated state is the one whose half-open
    interval holds the draw. *)
Lemma designates_interval : forall F r i, nondecreasing F -> 0 <= r ->
  (designates F r i <-> exists lo hi, left_end F i lo /\ at_ F i hi /\ lo <= r /\ r < hi).
Proof.
  intros F r i HF Hr; split.
  - intros (c & Hc & Hrc & Hj). destruct i as [|i].
    + exists 0, c. simpl. auto.
    + assert (Hlt : (S i < length F)%nat) by (eapply at_lt; eauto).
      destruct (lt_at _ F i ltac:(lia)) as [d Hd].
      exists d, c. simpl. repeat split; auto. apply (Hj i d); auto.
  - intros (lo & hi & Hlo & Hhi & Hl & Hh). exists hi. repeat split; auto.
    intros j d Hj Hd. destruct i as [|i]; [lia|]. simpl in Hlo.
    assert (d <= lo) by (apply (nondecreasing_le F j i); auto; lia). lra.
Qed.

Lemma exhausted_last : forall F r c, nondecreasing F -> at_ F (length F - 1) c ->
  (exhausted F r <-> c <= r).
Proof.
  intros F r c HF Hc; split; intro H.
  - eapply H; eauto.
  - intros j d Hd. pose proof (at_lt _ _ _ _ Hd).
    assert (d <= c) by (apply (nondecreasing_le F j (length F - 1)); auto; lia). lra.
Qed.

Lemma cumsum_nondecreasing : forall p, nonneg p -> nondecreasing (cumsum p).
Proof.
  intros p Hp i x y Hx Hy. apply cumsum_nth_eq in Hx as [Hi Hx]. apply cumsum_nth_eq in Hy as [Hj Hy].
  rewrite Hx, Hy. apply qsum_firstn_mono; [apply nonneg_Forall; auto|lia].
Qed.

Lemma cumsum_at : forall p i c, at_ (cumsum p) i c -> (i < length p)%nat /\ c == mass_before p (S i).
Proof. intros p i c H. unfold mass_before. rewrite total_qsum. apply cumsum_nth_eq; exact H. Qed.

Lemma cumsum_at_ex : forall p i, (i < length p)%nat -> exists c, at_ (cumsum p) i c /\ c == mass_before p (S i).
Proof. intros p i H. unfold mass_before. setoid_rewrite total_qsum. apply cumsum_nth; auto. Qed.

Lemma cumsum_nonempty : forall p, p <> [] -> cumsum p <> [].
Proof. intros [|x p] H; [congruence|]. unfold cumsum; simpl; congruence. Qed.

Lemma designates_pdf : forall p r i, nonneg p -> 0 <= r ->
  (designates (cumsum p) r i <-> (i < length p)%nat /\ mass_before p i <= r /\ r < mass_before p (S i)).
Proof.
  intros p r i Hp Hr. rewrite designates_interval by (auto using cumsum_nondecreasing). split.
  - intros (lo & hi & Hlo & Hhi & Hl & Hh). apply cumsum_at in Hhi as [Hi Hhi].
    split; [exact Hi|]. rewrite <- Hhi. split; [|exact Hh].
    destruct i as [|i]; simpl in Hlo.
    + unfold mass_before; simpl. exact Hr.
    + apply cumsum_at in Hlo as [_ Hlo]. rewrite <- Hlo. exact Hl.
  - intros (Hi & Hl & Hh). destruct (cumsum_at_ex p i Hi) as [hi [Hhi Ehi]].
    destruct i as [|i].
    + exists 0, hi. simpl. repeat split; auto. rewrite Ehi; auto.
    + destruct (cumsum_at_ex p i ltac:(lia)) as [lo [Hlo Elo]].
      exists lo, hi. simpl. repeat split; auto; [rewrite Elo; auto|rewrite Ehi; auto].
Qed.

Lemma mass_before_all : forall p, mass_before p (length p) = total p.
Proof. intros; unfold mass_before. rewrite firstn_all; auto. Qed.

Lemma mass_step : forall p i x, at_ p i x -> mass_before p (S i) == mass_before p i + x.
Proof. intros; unfold mass_before; rewrite !total_qsum; apply qsum_firstn_S; auto. Qed.

Lemma pdf_not_exhausted : forall p r, p <> [] -> nonneg p -> r < total p -> ~ exhausted (cumsum p) r.
Proof.
  intros p r Hne Hp Hr He.
  assert (Hl : (length p - 1 < length p)%nat) by (destruct p; [congruence|simpl; lia]).
  destruct (cumsum_at_ex p (length p - 1) Hl) as [c [Hc Ec]].
  replace (S (length p - 1)) with (length p) in Ec by lia. rewrite mass_before_all in Ec.
  specialize (He _ _ Hc). lra.
Qed.

Lemma mc_pdf_one_iff : forall p r i, p <> [] -> nonneg p -> 0 <= r -> r < total p ->
  (mc_from_1d_pdf p [r] = Ok [i] <->
   (i < length p)%nat /\ mass_before p i <= r /\ r < mass_before p (S i)).
Proof.
  intros p r i Hne Hp Hr Hlt. rewrite <- designates_pdf by auto.
  unfold mc_from_1d_pdf, mc_from_1d_cdf.
  destruct (cumsum p) as [|c t] eqn:E; [exfalso; eapply cumsum_nonempty; eauto|]. rewrite <- E.
  simpl. destruct (mc_one_total (cumsum p) r (cumsum_nonempty p Hne)) as [k Hk].
  rewrite Hk; simpl.
  assert (Hd : designates (cumsum p) r k).
  { apply mc_one_spec in Hk as [_ [Hk|[_ Hk]]]; auto. exfalso; eapply pdf_not_exhausted; eauto. }
  split; intro H.
  - injection H as <-; exact Hd.
  - rewrite (designates_unique _ _ _ _ Hd H); reflexivity.
Qed.

Lemma mc_pdf_positive : forall p draws out, nonneg p -> 1 <= total p ->
  (forall k r, at_ draws k r -> 0 <= r /\ r < 1) ->
  mc_from_1d_pdf p draws = Ok out ->
  length out = length draws /\
  forall k i, at_ out k i -> exists x, at_ p i x /\ 0 < x.
Proof.
  intros p draws out Hp Ht Hd Hout.
  assert (Hne : p <> []). { intros ->. unfold total in Ht; simpl in Ht; lra. }
  unfold mc_from_1d_pdf, mc_from_1d_cdf in Hout.
  destruct (cumsum p) as [|c t] eqn:E; [discriminate|]. rewrite <- E in Hout.
  apply mapM_ok in Hout as [Hl Hn]. split; [exact Hl|]. intros k i Hk.
  assert (Hkl : (k < length draws)%nat) by (rewrite <- Hl; eapply at_lt; eauto).
  destruct (lt_at _ draws k Hkl) as [r Hr].
  destruct (Hn k r Hr) as [i' [Hi' Hm]].
  assert (i' = i) by (unfold at_ in *; congruence); subst i'.
  destruct (Hd k r Hr) as [Hr0 Hr1].
  apply mc_one_spec in Hm as [_ [Hm|[_ Hm]]].
  - apply designates_pdf in Hm as (Hi & Hlo & Hhi); auto.
    destruct (lt_at _ p i Hi) as [x Hx]. exists x; split; [exact Hx|].
    rewrite (mass_step p i x Hx) in Hhi. lra.
  - exfalso; apply (pdf_not_exhausted p r); auto. lra.
Qed.

Lemma mc_from_pdf_rows_positive : forall rows draws out,
  (forall k row, at_ rows k row -> nonneg row /\ 1 <= total row) ->
  length draws = length rows ->
  (forall k r, at_ draws k r -> 0 <= r /\ r < 1) ->
  mc_from_pdf rows draws = Ok out ->
  length out = length rows /\
  forall k row i, at_ rows k row -> at_ out k i -> exists x, at_ row i x /\ 0 < x.
Proof.
  intros rows draws out Hrows Hlen Hd Hout.
  unfold mc_from_pdf in Hout.
  destruct (mc_from_cdf_all (map cumsum rows) draws) as [out' [Hout' [Hl Hn]]].
  { apply Forall_forall. intros F HF. apply in_map_iff in HF as [row [<- Hin]].
    apply in_at in Hin as [k Hk]. destruct (Hrows k row Hk) as [_ Ht].
    apply cumsum_nonempty. intros ->. unfold total in Ht; simpl in Ht; lra. }
  { rewrite map_length; auto. }
  rewrite Hout in Hout'. injection Hout' as <-. rewrite map_length in Hl. split; [exact Hl|].
  intros k row i Hk Hi. destruct (Hrows k row Hk) as [Hp Ht].
  assert (Hkl : (k < length draws)%nat) by (rewrite Hlen; eapply at_lt; eauto).
  destruct (lt_at _ draws k Hkl) as [r Hr]. destruct (Hd k r Hr) as [Hr0 Hr1].
  destruct (Hn k (cumsum row) r) as [i' [Hi' [_ Hm]]]; auto.
  { unfold at_ in *. rewrite nth_error_map, Hk. reflexivity. }
  assert (i' = i) by (unfold at_ in *; congruence); subst i'.
  assert (Hne : row <> []). { intros ->. unfold total in Ht; simpl in Ht; lra. }
  destruct Hm as [Hm|[_ Hm]].
  - apply designates_pdf in Hm as (Hil & Hlo & Hhi); auto.
    destruct (lt_at _ row i Hil) as [x Hx]. exists x; split; [exact Hx|].
    rewrite (mass_step row i x Hx) in Hhi. lra.
  - exfalso; apply (pdf_not_exhausted row r); auto. lra.
Qed.

(** ** Distributions *)

Lemma near_one_iff : forall eps s, near_one eps s = true <-> 1 - eps < s /\ s < 1 + eps.
Proof. intros; unfold near_one; rewrite andb_true_iff, !Qltb_lt; tauto. Qed.

Lemma near_one_false : forall eps s, near_one eps s = false <-> ~ (1 - eps < s /\ s < 1 + eps).
Proof. intros; rewrite <- near_one_iff. destruct (near_one eps s); split; congruence || (intro H; exfalso; auto). Qed.

Lemma existsb_nil_false : forall A (rows : list (list A)), existsb is_nil rows = false ->
  Forall (fun row => row <> []) rows.
Proof.
  induction rows as [|row rows IH]; simpl; intro H; constructor.
  - destruct row; simpl in H; [discriminate|congruence].
  - apply IH. destruct row; simpl in H; [discriminate|auto].
Qed.

Lemma existsb_nil_true : forall A (rows : list (list A)), existsb is_nil rows = true -> In [] rows.
Proof. intros A rows H. apply existsb_exists in H as [[|x r] [H1 H2]]; auto. discriminate. Qed.

Lemma rescale_pdf_error_iff : forall eps rows, 0 < eps -> eps <= 1 ->
  (rescale_pdf eps rows = Err ValueError <->
   exists k row, at_ rows k row /\ ~ (1 - eps < total row /\ total row < 1 + eps)).
Proof.
  intros eps rows He He1. unfold rescale_pdf.
  destruct (existsb is_nil rows) eqn:En.
  - split; [intros _|reflexivity]. apply existsb_nil_true in En. apply in_at in En as [k Hk].
    exists k, []. split; [exact Hk|]. unfold total; simpl. intros [H _]. lra.
  - destruct (forallb (fun row => near_one eps (qsum row)) rows) eqn:Ef.
    + split; [discriminate|]. intros (k & row & Hk & Hbad). exfalso; apply Hbad.
      rewrite total_qsum. apply near_one_iff. rewrite forallb_forall in Ef. apply Ef. eapply at_in; eauto.
    + split; [intros _|reflexivity].
      apply not_true_iff_false in Ef. rewrite forallb_forall in Ef.
      assert (Hex : existsb (fun row => negb (near_one eps (qsum row))) rows = true).
      { apply not_false_iff_true. intro Hf. apply Ef. intros x Hx.
        destruct (near_one eps (qsum x)) eqn:E; auto.
        assert (existsb (fun row => negb (near_one eps (qsum row))) rows = true).
        { apply existsb_exists. exists x; rewrite E; auto. } congruence. }
      apply existsb_exists in Hex as [row [Hin Hn]]. apply in_at in Hin as [k Hk].
      exists k, row. split; [exact Hk|]. rewrite total_qsum.
      apply near_one_false. apply negb_true_iff; auto.
Qed.

Lemma rescale_pdf_total : forall eps rows,
  rescale_pdf eps rows = Err ValueError \/ exists out, rescale_pdf eps rows = Ok out.
Proof.
  intros; unfold rescale_pdf. destruct (existsb is_nil rows); auto.
  destruct (forallb _ rows); eauto.
Qed.

Lemma rescale_pdf_ok_inv : forall eps rows out, rescale_pdf eps rows = Ok out ->
  out = map (fun row => map (fun x => x / qsum row) row) rows /\
  Forall (fun row => row <> []) rows /\
  (forall row, In row rows -> 1 - eps < qsum row /\ qsum row < 1 + eps).
Proof.
  intros eps rows out H. unfold rescale_pdf in H.
  destruct (existsb is_nil rows) eqn:En; [discriminate|].
  destruct (forallb (fun row => near_one eps (qsum row)) rows) eqn:Ef; [|discriminate].
  injection H as <-. split; [reflexivity|]. split; [apply existsb_nil_false; auto|].
  intros row Hin. rewrite forallb_forall in Ef. apply near_one_iff. auto.
Qed.

Lemma rescale_pdf_ok : forall eps rows out, eps <= 1 -> rescale_pdf eps rows = Ok out ->
  length out = length rows /\
  forall k row, at_ rows k row -> exists row', at_ out k row' /\
    total row' == 1 /\ rescaled_by (total row) row row' /\
    (forall i x y, at_ row i x -> at_ row' i y -> (x == 0 <-> y == 0)).
Proof.
  intros eps rows out He H. apply rescale_pdf_ok_inv in H as (-> & Hne & Hs).
  split; [apply map_length|]. intros k row Hk.
  exists (map (fun x => x / qsum row) row). unfold at_ in *. rewrite nth_error_map, Hk.
  split; [reflexivity|].
  assert (Hpos : 0 < qsum row).
  { destruct (Hs row) as [H1 _]; [eapply nth_error_In; eauto|]. lra. }
  assert (Hnz : ~ qsum row == 0) by lra.
  split; [|split].
  - rewrite total_qsum, qsum_map_div. field. auto.
  - split; [apply map_length|]. intros i x y Hx Hy. unfold at_ in *. rewrite nth_error_map, Hx in Hy.
    simpl in Hy. injection Hy as <-. rewrite (total_qsum row). field; auto.
  - intros i x y Hx Hy. rewrite nth_error_map, Hx in Hy. simpl in Hy. injection Hy as <-.
    split; intro Hz.
    + rewrite Hz. field; auto.
    + assert (E : x == x / qsum row * qsum row) by (field; auto). rewrite E, Hz. ring.
Qed.

Lemma rescale_pdf_idem : forall eps rows out, 0 < eps -> eps <= 1 -> rescale_pdf eps rows = Ok out ->
  exists out', rescale_pdf eps out = Ok out' /\ Forall2 eqQ_list out' out.
Proof.
  intros eps rows out He He1 H.
  pose proof (rescale_pdf_ok eps rows out He1 H) as [Hl Hrows].
  destruct (rescale_pdf_total eps out) as [Herr|[out' Hout']].
  - exfalso. apply rescale_pdf_error_iff in Herr as (k & row' & Hk & Hbad); auto.
    assert (Hkl : (k < length rows)%nat) by (rewrite <- Hl; eapply at_lt; eauto).
    destruct (lt_at _ rows k Hkl) as [row Hrow].
    destruct (Hrows k row Hrow) as [r2 [Hr2 [Ht _]]].
    rewrite (at_fun _ _ _ _ _ Hk Hr2) in Hbad. apply Hbad. rewrite Ht. lra.
  - exists out'. split; [exact Hout'|].
    apply rescale_pdf_ok_inv in Hout' as (-> & _ & _).
    assert (Hone : forall row', In row' out -> qsum row' == 1).
    { intros row' Hin. apply in_at in Hin as [k Hk].
      assert (Hkl : (k < length rows)%nat) by (rewrite <- Hl; eapply at_lt; eauto).
      destruct (lt_at _ rows k Hkl) as [row Hrow].
      destruct (Hrows k row Hrow) as [r2 [Hr2 [Ht _]]].
      rewrite (at_fun _ _ _ _ _ Hk Hr2), <- total_qsum. exact Ht. }
    clear -Hone. induction out as [|row out IH]; simpl; constructor.
    + assert (H1 : qsum row == 1) by (apply Hone; left; auto).
      set (s := qsum row) in *. clearbody s. clear -H1.
      induction row as [|x row IHr]; simpl; constructor; auto. rewrite H1. field.
    + apply IH. intros; apply Hone; right; auto.
Qed.

Lemma increasing_b_iff : forall row, increasing_b row = true <-> nondecreasing row.
Proof.
  induction row as [|x row IH].
  - split; [intros _ [|i] a b Ha; discriminate|reflexivity].
  - destruct row as [|y row].
    + simpl. split; [intros _ [|i] a b Ha Hb; [discriminate|destruct i; discriminate]|reflexivity].
    + change (increasing_b (x :: y :: row)) with (Qle_bool x y && increasing_b (y :: row)).
      rewrite andb_true_iff, IH, Qleb_le. split.
      * intros [Hxy Hr] [|i] a b Ha Hb; unfold at_ in *; simpl in *.
        -- injection Ha as <-; injection Hb as <-; auto.
        -- apply (Hr i a b); auto.
      * intro H. split; [apply (H 0%nat); reflexivity|]. eapply nondecreasing_cons; eauto.
Qed.

Lemma last_at : forall A (l : list A) d, l <> [] -> at_ l (length l - 1) (last l d).
Proof.
  induction l as [|x l IH]; intros d H; [congruence|].
  destruct l as [|y l]; [reflexivity|].
  change (last (x :: y :: l) d) with (last (y :: l) d). unfold at_ in *.
  replace (length (x :: y :: l) - 1)%nat with (S (length (y :: l) - 1)) by (simpl; lia).
  apply IH; congruence.
Qed.

Lemma check_valid_cdf_iff : forall eps rows,
  (check_valid_cdf eps rows = Ok true <-> forall k row, at_ rows k row -> admissible_cdf eps row).
Proof.
  intros eps rows. unfold check_valid_cdf.
  destruct (existsb is_nil rows) eqn:En.
  { split; [discriminate|]. intro H. apply existsb_nil_true in En. apply in_at in En as [k Hk].
    apply H in Hk as [Hk _]; congruence. }
  apply existsb_nil_false in En. rewrite Forall_forall in En.
  destruct (forallb (fun row => near_one eps (last row 0)) rows) eqn:E1; simpl.
  2:{ split; [discriminate|]. intro H. exfalso. apply not_true_iff_false in E1. apply E1.
      apply forallb_forall. intros row Hin. apply near_one_iff.
      pose proof Hin as Hin'. apply in_at in Hin as [k Hk]. apply H in Hk as (Hne & _ & _ & Hlast).
      apply Hlast. apply last_at; auto. }
  destruct (forallb increasing_b rows) eqn:E2; simpl.
  2:{ split; [discriminate|]. intro H. exfalso. apply not_true_iff_false in E2. apply E2.
      apply forallb_forall. intros row Hin. apply increasing_b_iff.
      apply in_at in Hin as [k Hk]. apply H in Hk as (_ & Hnd & _); auto. }
  destruct (forallb (forallb (fun c => Qle_bool c (1 + eps) && Qle_bool 0 c)) rows) eqn:E3; simpl.
  2:{ split; [discriminate|]. intro H. exfalso. apply not_true_iff_false in E3. apply E3.
      apply forallb_forall. intros row Hin. apply forallb_forall. intros c Hc.
      apply in_at in Hin as [k Hk]. apply H in Hk as (_ & _ & Hb & _).
      apply in_at in Hc as [i Hi]. apply Hb in Hi as [Hi1 Hi2].
      apply andb_true_iff; split; apply Qleb_le; auto. }
  split; [|reflexivity]. intros _ k row Hk.
  assert (Hin : In row rows) by (eapply at_in; eauto).
  rewrite forallb_forall in E1, E2, E3.
  repeat split.
  - apply En; auto.
  - apply increasing_b_iff; auto.
  - specialize (E3 row Hin). rewrite forallb_forall in E3.
    specialize (E3 x (at_in _ _ _ _ H)). apply andb_true_iff in E3 as [_ E3]. apply Qleb_le; auto.
  - specialize (E3 row Hin). rewrite forallb_forall in E3.
    specialize (E3 x (at_in _ _ _ _ H)). apply andb_true_iff in E3 as [E3 _]. apply Qleb_le; auto.
  - specialize (E1 row Hin). apply near_one_iff in E1.
    pose proof (last_at _ row 0 (En row Hin)) as Hla.
    rewrite (at_fun _ _ _ _ _ H Hla). tauto.
  - specialize (E1 row Hin). apply near_one_iff in E1.
    pose proof (last_at _ row 0 (En row Hin)) as Hla.
    rewrite (at_fun _ _ _ _ _ H Hla). tauto.
Qed.

Lemma check_valid_cdf_total : forall eps rows,
  check_valid_cdf eps rows = Ok true \/ check_valid_cdf eps rows = Err ValueError.
Proof.
  intros; unfold check_valid_cdf. destruct (existsb is_nil rows); auto.
  destruct (negb _); auto. destruct (negb _); auto. destruct (negb _); auto.
Qed.

Lemma check_valid_cdf_err_iff : forall eps rows,
  check_valid_cdf eps rows = Err ValueError <-> ~ forall k row, at_ rows k row -> admissible_cdf eps row.
Proof.
  intros. rewrite <- check_valid_cdf_iff.
  destruct (check_valid_cdf_total eps rows) as [H|H]; rewrite H; split; intros; try congruence.
Qed.

Lemma rescale_cdf_error_iff : forall eps rows, 
  (rescale_cdf eps rows = Err ValueError <->
   exists k row, at_ rows k row /\ (row = [] \/ exists c, at_ row (length row - 1) c /\ ~ (1 - eps < c /\ c < 1 + eps))).
Proof.
  intros eps rows. unfold rescale_cdf.
  destruct (existsb is_nil rows) eqn:En.
  - split; [intros _|reflexivity]. apply existsb_nil_true in En. apply in_at in En as [k Hk].
    exists k, []; auto.
  - apply existsb_nil_false in En. rewrite Forall_forall in En.
    destruct (forallb (fun row => near_one eps (last row 0)) rows) eqn:Ef.
    + split; [discriminate|]. intros (k & row & Hk & [->|(c & Hc & Hbad)]).
      * exfalso. apply (En []); auto. eapply at_in; eauto.
      * exfalso; apply Hbad. apply near_one_iff. rewrite forallb_forall in Ef.
        pose proof (at_in _ _ _ _ Hk) as Hin. specialize (Ef row Hin).
        rewrite (at_fun _ _ _ _ _ Hc (last_at _ row 0 (En row Hin))). auto.
    + split; [intros _|reflexivity].
      assert (Hex : existsb (fun row => negb (near_one eps (last row 0))) rows = true).
      { apply not_false_iff_true. intro Hf. apply not_true_iff_false in Ef. apply Ef.
        apply forallb_forall. intros x Hx.
        destruct (near_one eps (last x 0)) eqn:E; auto.
        assert (existsb (fun row => negb (near_one eps (last row 0))) rows = true).
        { apply existsb_exists. exists x; rewrite E; auto. } congruence. }
      apply existsb_exists in Hex as [row [Hin Hn]]. pose proof Hin as Hin'. apply in_at in Hin as [k Hk].
      exists k, row. split; [exact Hk|]. right. exists (last row 0). split; [apply last_at; auto|].
      apply near_one_false. apply negb_true_iff; auto.
Qed.

Lemma rescale_cdf_ok : forall eps rows out, eps <= 1 -> rescale_cdf eps rows = Ok out ->
  length out = length rows /\
  forall k row, at_ rows k row -> exists row' c, at_ out k row' /\ at_ row (length row - 1) c /\
    rescaled_by c row row' /\
    (forall y, at_ row' (length row' - 1) y -> y == 1) /\
    (nondecreasing row -> nondecreasing row').
Proof.
  intros eps rows out He H. unfold rescale_cdf in H.
  destruct (existsb is_nil rows) eqn:En; [discriminate|]. apply existsb_nil_false in En.
  rewrite Forall_forall in En.
  destruct (forallb (fun row => near_one eps (last row 0)) rows) eqn:Ef; [|discriminate].
  injection H as <-. split; [apply map_length|]. intros k row Hk.
  assert (Hin : In row rows) by (eapply at_in; eauto).
  exists (map (fun x => x / last row 0) row), (last row 0).
  rewrite forallb_forall in Ef. specialize (Ef row Hin). apply near_one_iff in Ef as [H1 H2].
  assert (Hpos : 0 < last row 0) by lra. assert (Hnz : ~ last row 0 == 0) by lra.
  pose proof (last_at _ row 0 (En row Hin)) as Hla.
  split; [unfold at_ in *; rewrite nth_error_map, Hk; reflexivity|].
  split; [exact Hla|]. split; [|split].
  - split; [apply map_length|]. intros i x y Hx Hy. unfold at_ in *. rewrite nth_error_map, Hx in Hy.
    simpl in Hy; injection Hy as <-. field; auto.
  - intros y Hy. rewrite map_length in Hy. unfold at_ in *. rewrite nth_error_map, Hla in Hy.
    simpl in Hy; injection Hy as <-. field; auto.
  - intros Hnd i x y Hx Hy. unfold at_ in *. rewrite nth_error_map in Hx, Hy.
    destruct (nth_error row i) as [a|] eqn:Ea; simpl in Hx; [|discriminate]. injection Hx as <-.
    destruct (nth_error row (S i)) as [b|] eqn:Eb; simpl in Hy; [|discriminate]. injection Hy as <-.
    specialize (Hnd i a b Ea Eb). unfold Qdiv. apply Qmult_le_compat_r; auto.
    apply Qlt_le_weak, Qinv_lt_0_compat; auto.
Qed.

(** ** External overrides *)

Lemma assign_external_array_spec : forall A (base : list A) ext,
  (assign_external_array base None = Ok base) /\
  (length ext <> length base -> assign_external_array base (Some ext) = Err IndexError) /\
  (length ext = length base -> exists out, assign_external_array base (Some ext) = Ok out /\ overridden base ext out).
Proof.
  intros A base ext. split; [reflexivity|]. unfold assign_external_array. split; intro H.
  - apply Nat.eqb_neq in H. rewrite H. reflexivity.
  - rewrite H, Nat.eqb_refl. eexists; split; [reflexivity|].
    split; [rewrite map2_length; lia|]. unfold at_. split; intros i v.
    + intro Hi. rewrite map2_nth, Hi.
      destruct (nth_error base i) eqn:E; [reflexivity|]. exfalso.
      assert (i < length ext)%nat by (apply nth_error_Some; congruence).
      apply nth_error_None in E. lia.
    + intros Hi Hb. rewrite map2_nth, Hb, Hi. reflexivity.
Qed.

Section ExtDict.
  Variables (K A : Type) (eqb : K -> K -> bool).
  Hypothesis eqb_eq : forall a b, eqb a b = true <-> a = b.

  Lemma assign_items_frame : forall items (base out : list (K * list A)) k,
    assign_items eqb base items = Ok out -> ~ In k (map fst items) ->
    dget eqb out k = dget eqb base k.
  Proof.
    induction items as [|[k1 v1] items IH]; intros base out k H Hni; simpl in H.
    - injection H as <-; reflexivity.
    - destruct (dget eqb base k1) as [b|] eqn:E; [|discriminate].
      destruct (assign_external_array b v1) as [b'|e] eqn:Ea; simpl in H; [|discriminate].
      rewrite (IH _ _ _ H) by (intro; apply Hni; right; auto).
      apply dget_dset_other; auto. intro; subst; apply Hni; left; auto.
  Qed.

  Lemma assign_items_keys : forall items (base out : list (K * list A)),
    assign_items eqb base items = Ok out -> map fst out = map fst base.
  Proof.
    induction items as [|[k1 v1] items IH]; intros base out H; simpl in H.
    - injection H as <-; reflexivity.
    - destruct (dget eqb base k1) as [b|] eqn:E; [|discriminate].
      destruct (assign_external_array b v1) as [b'|e] eqn:Ea; simpl in H; [|discriminate].
      rewrite (IH _ _ H). apply dset_keys. congruence.
  Qed.

  Lemma assign_items_value : forall items (base out : list (K * list A)) k v,
    NoDup (map fst items) -> assign_items eqb base items = Ok out -> In (k, v) items ->
    exists b b', dget eqb base k = Some b /\ assign_external_array b v = Ok b' /\ dget eqb out k = Some b'.
  Proof.
    induction items as [|[k1 v1] items IH]; intros base out k v Hnd H Hin; simpl in H; [destruct Hin|].
    destruct (dget eqb base k1) as [b|] eqn:E; [|discriminate].
    destruct (assign_external_array b v1) as [b'|e] eqn:Ea; simpl in H; [|discriminate].
    simpl in Hnd; inversion Hnd as [|? ? Hni Hnd']; subst.
    destruct Hin as [Heq|Hin].
    - injection Heq as -> ->. exists b, b'. repeat split; auto.
      rewrite (assign_items_frame _ _ _ _ H Hni). apply dget_dset_same; auto.
    - destruct (IH _ _ k v Hnd' H Hin) as (c & c' & H1 & H2 & H3). exists c, c'. repeat split; auto.
      rewrite <- H1. symmetry. apply dget_dset_other; auto. intro; subst k. apply Hni.
      change k1 with (fst (k1, v)). apply in_map; auto.
  Qed.

  Lemma assign_items_keyerror : forall items (base : list (K * list A)) k v,
    In (k, v) items -> dget eqb base k = None -> NoDup (map fst items) ->
    (forall k' v' b, In (k', v') items -> dget eqb base k' = Some b ->
        match v' with None => True | Some e => length e = length b end) ->
    assign_items eqb base items = Err KeyError.
  Proof.
    induction items as [|[k1 v1] items IH]; intros base k v Hin Hnone Hnd Hlen; simpl; [destruct Hin|].
    simpl in Hnd; inversion Hnd as [|? ? Hni Hnd']; subst.
    destruct (dget eqb base k1) as [b|] eqn:E; [|reflexivity].
    assert (Hb : exists b', assign_external_array b v1 = Ok b').
    { specialize (Hlen k1 v1 b (or_introl eq_refl) E). destruct v1 as [e|]; [|simpl; eauto].
      simpl. rewrite Hlen, Nat.eqb_refl. eauto. }
    destruct Hb as [b' Hb']. rewrite Hb'; simpl.
    destruct Hin as [Heq|Hin]; [injection Heq as -> ->; congruence|].
    apply (IH _ k v); auto.
    - rewrite dget_dset_other; auto. intro; subst; congruence.
    - intros k' v' c Hin' Hc. apply (Hlen k' v' c); [right; auto|].
      rewrite <- Hc. symmetry. apply dget_dset_other; auto. intro; subst k'. apply Hni.
      change k1 with (fst (k1, v')). apply in_map; auto.
  Qed.
End ExtDict.

(** ** Population sampling *)

Lemma linspace01_length : forall n, length (linspace01 n) = n.
Proof. intros [|[|n]]; simpl; auto. rewrite map_length, seq_length. auto. Qed.

Lemma sample_population_total : forall n pdf algo draws counts,
  length draws = n -> sample_population n pdf algo draws = Ok counts -> total_nat counts = n.
Proof.
  intros n pdf algo draws counts Hd H. rewrite total_nat_nsum. unfold sample_population in H.
  destruct (check_valid_cdf eps_cdf [cumsum pdf]) as [?|?]; simpl in H; [|discriminate].
  destruct algo; simpl in H.
  - injection H as <-. rewrite bincount_sum, map_length, linspace01_length. auto.
  - destruct (mc_from_1d_cdf (cumsum pdf) draws) as [inds|e] eqn:Em; simpl in H; [|discriminate].
    injection H as <-. rewrite bincount_sum.
    unfold mc_from_1d_cdf in Em. destruct (cumsum pdf); [discriminate|].
    apply mapM_ok in Em as [Em _]. lia.
  - discriminate.
Qed.

(** Counting grid points. *)
Lemma count_nat_map_filter : forall (f : nat -> nat) l i,
  count_nat i (map f l) = length (filter (fun k => Nat.eqb (f k) i) l).
Proof.
  induction l as [|x l IH]; intro i; simpl; auto. rewrite IH, Nat.eqb_sym.
  destruct (f x =? i)%nat; reflexivity.
Qed.

Lemma filter_split : forall (f : nat -> nat) l i,
  length (filter (fun k => Nat.leb (f k) (S i)) l) =
  (length (filter (fun k => Nat.leb (f k) i) l) + length (filter (fun k => Nat.eqb (f k) (S i)) l))%nat.
Proof.
  induction l as [|x l IH]; intro i; simpl; auto.
  destruct (f x <=? i)%nat eqn:E1; destruct (f x =? S i)%nat eqn:E2;
  [apply Nat.leb_le in E1; apply Nat.eqb_eq in E2; lia| | |].
  - apply Nat.leb_le in E1. replace (f x <=? S i)%nat with true by (symmetry; apply Nat.leb_le; lia).
    simpl. rewrite IH. lia.
  - apply Nat.eqb_eq in E2. replace (f x <=? S i)%nat with true by (symmetry; apply Nat.leb_le; lia).
    simpl. rewrite IH. lia.
  - apply Nat.leb_gt in E1; apply Nat.eqb_neq in E2.
    replace (f x <=? S i)%nat with false by (symmetry; apply Nat.leb_gt; lia). apply IH.
Qed.

Lemma filter_leb_seq : forall n s z, (0 <= z)%Z ->
  Z.of_nat (length (filter (fun k => Z.leb (Z.of_nat k) (Z.of_nat s + z)) (seq s n))) = Z.min (Z.of_nat n) (z + 1).
Proof.
  induction n as [|n IH]; intros s z Hz; [simpl; lia|]. simpl seq. simpl filter.
  replace (Z.of_nat s <=? Z.of_nat s + z)%Z with true by (symmetry; apply Z.leb_le; lia).
  simpl length.
  destruct (Z.eq_dec z 0) as [->|Hz0].
  - replace (filter _ (seq (S s) n)) with (@nil nat); [simpl; lia|].
    symmetry. clear. assert (G : forall m t, (s < t)%nat -> filter (fun k => (Z.of_nat k <=? Z.of_nat s + 0)%Z) (seq t m) = []).
    { induction m as [|m IHm]; intros t Ht; simpl; auto.
      replace (Z.of_nat t <=? Z.of_nat s + 0)%Z with false by (symmetry; apply Z.leb_gt; lia). apply IHm; lia. }
    apply G; lia.
  - rewrite Nat2Z.inj_succ. rewrite (filter_ext _ (fun k => (Z.of_nat k <=? Z.of_nat (S s) + (z - 1))%Z)).
    + rewrite IH by lia. lia.
    + intro k. f_equal. lia.
Qed.

Lemma searchsorted_Qeq : forall a x y, x == y -> searchsorted a x = searchsorted a y.
Proof.
  induction a as [|z a IH]; intros x y H; simpl; auto.
  assert (E : Qle_bool x z = Qle_bool y z).
  { destruct (Qle_bool x z) eqn:E1; destruct (Qle_bool y z) eqn:E2; auto;
    [apply Qleb_le in E1; apply Qleb_gt in E2; lra|apply Qleb_gt in E1; apply Qleb_le in E2; lra]. }
  rewrite E. destruct (Qle_bool y z); auto.
Qed.

Lemma searchsorted_le_iff : forall a x i c, nondecreasing a -> at_ a i c ->
  ((searchsorted a x <= i)%nat <-> x <= c).
Proof.
  intros a x i c Ha Hc. destruct (searchsorted_spec a x _ eq_refl) as [H1 H2]. split; intro H.
  - pose proof (at_lt _ _ _ _ Hc) as Hlt.
    destruct (lt_at _ a (searchsorted a x)) as [y Hy]; [lia|].
    specialize (H2 y Hy). assert (y <= c) by (exact (nondecreasing_le a _ _ _ _ Ha H Hy Hc)). lra.
  - destruct (le_lt_dec (searchsorted a x) i) as [Hle|Hgt]; auto.
    specialize (H1 i c Hgt Hc). lra.
Qed.

Definition gridpt (n k : nat) : Q := inject_Z (Z.of_nat k) / inject_Z (Z.of_nat (Nat.max 1 (n - 1))).

Lemma linspace_grid : forall a n,
  map (searchsorted a) (linspace01 n) = map (fun k => searchsorted a (gridpt n k)) (seq 0 n).
Proof.
  intros a [|[|n]]; [reflexivity| |].
  - simpl. f_equal.
  - unfold linspace01. rewrite map_map. apply map_ext. intro k. unfold gridpt.
    replace (Nat.max 1 (S (S n) - 1)) with (S n) by lia. reflexivity.
Qed.

Lemma gridpt_le_iff : forall n k c,
  (gridpt n k <= c <-> (Z.of_nat k <= Qfloor (c * inject_Z (Z.of_nat (Nat.max 1 (n - 1)))))%Z).
Proof.
  intros n k c. unfold gridpt. set (m := Nat.max 1 (n - 1)).
  assert (Hm : 0 < inject_Z (Z.of_nat m)).
  { change 0 with (inject_Z 0). rewrite <- Zlt_Qlt. unfold m; lia. }
  assert (Hnz : ~ inject_Z (Z.of_nat m) == 0) by lra.
  split; intro H.
  - assert (Hk : inject_Z (Z.of_nat k) <= c * inject_Z (Z.of_nat m)).
    { assert (E : inject_Z (Z.of_nat k) == inject_Z (Z.of_nat k) / inject_Z (Z.of_nat m) * inject_Z (Z.of_nat m)) by (field; auto).
      rewrite E. apply Qmult_le_compat_r; lra. }
    apply Qfloor_resp_le in Hk. rewrite Qfloor_Z in Hk. exact Hk.
  - assert (Hk : inject_Z (Z.of_nat k) <= c * inject_Z (Z.of_nat m)).
    { eapply Qle_trans; [|apply Qfloor_le]. rewrite <- Zle_Qle. exact H. }
    apply Qle_shift_div_r; auto.
Qed.

Lemma index_le_count : forall n cdf i c, (1 <= n)%nat -> nondecreasing cdf -> at_ cdf i c -> 0 <= c -> c <= 1 ->
  Z.of_nat (length (filter (fun k => Nat.leb (searchsorted cdf (gridpt n k)) i) (seq 0 n))) = points_up_to n c.
Proof.
  intros n cdf i c Hn Hnd Hc Hc0 Hc1.
  rewrite (filter_ext _ (fun k => Z.leb (Z.of_nat k) (Z.of_nat 0 + Qfloor (c * inject_Z (Z.of_nat (Nat.max 1 (n - 1))))))).
  2:{ intro k. apply eq_true_iff_eq. rewrite Nat.leb_le, Z.leb_le.
      rewrite (searchsorted_le_iff cdf _ i c) by auto. rewrite gridpt_le_iff. change (Z.of_nat 0) with 0%Z; rewrite Z.add_0_l; reflexivity. }
  set (m := Nat.max 1 (n - 1)).
  assert (H0 : (0 <= Qfloor (c * inject_Z (Z.of_nat m)))%Z).
  { change 0%Z with (Qfloor 0). apply Qfloor_resp_le.
    rewrite <- (Qmult_0_l (inject_Z (Z.of_nat m))). apply Qmult_le_compat_r; auto.
    change 0 with (inject_Z 0). rewrite <- Zle_Qle. lia. }
  rewrite filter_leb_seq by exact H0.
  assert (Hle : (Qfloor (c * inject_Z (Z.of_nat m)) <= Z.of_nat m)%Z).
  { rewrite <- (Qfloor_Z (Z.of_nat m)) at 2. apply Qfloor_resp_le.
    rewrite <- (Qmult_1_l (inject_Z (Z.of_nat m))) at 2. apply Qmult_le_compat_r; auto.
    change 0 with (inject_Z 0). rewrite <- Zle_Qle. lia. }
  unfold points_up_to.
  destruct (Nat.eq_dec n 1) as [->|Hn1].
  - change (Z.of_nat 1 - 1)%Z with 0%Z. change (Z.of_nat 1) with 1%Z. rewrite Z.min_l by lia.
    change (inject_Z 0) with 0. rewrite (Qfloor_comp (c * 0) 0) by ring. reflexivity.
  - replace (Z.of_nat n - 1)%Z with (Z.of_nat m) by (unfold m; lia).
    rewrite Z.min_r; [reflexivity|]. unfold m in *; lia.
Qed.

Lemma pdf_cdf_bounds : forall pdf i c, is_pdf pdf -> at_ (cumsum pdf) i c -> 0 <= c /\ c <= 1.
Proof.
  intros pdf i c [Hp Ht] Hc. apply cumsum_at in Hc as [Hi Hc]. rewrite Hc. unfold mass_before. rewrite total_qsum.
  apply nonneg_Forall in Hp. split.
  - apply (qsum_firstn_mono pdf 0 (S i)) in Hp; [simpl in Hp; auto|lia].
  - rewrite (total_qsum pdf) in Ht. rewrite <- Ht. rewrite <- (firstn_all pdf) at 2. apply qsum_firstn_mono; auto; lia.
Qed.

Lemma check_pdf_ok : forall pdf, is_pdf pdf -> check_valid_cdf eps_cdf [cumsum pdf] = Ok true.
Proof.
  intros pdf Hpdf. apply check_valid_cdf_iff. intros [|k] row Hk; [|destruct k; discriminate].
  unfold at_ in Hk; simpl in Hk. injection Hk as <-. destruct Hpdf as [Hp Ht].
  assert (Hne : pdf <> []). { intros ->. unfold total in Ht; simpl in Ht; lra. }
  repeat split.
  - apply cumsum_nonempty; auto.
  - apply cumsum_nondecreasing; auto.
  - eapply pdf_cdf_bounds; eauto. split; auto.
  - assert (x <= 1) by (eapply pdf_cdf_bounds; eauto; split; auto). unfold eps_cdf. lra.
  - apply cumsum_at in H as [_ H]. rewrite cumsum_length in H.
    replace (S (length pdf - 1)) with (length pdf) in H by (destruct pdf; [congruence|simpl; lia]).
    rewrite mass_before_all, Ht in H. rewrite H. unfold eps_cdf; lra.
  - apply cumsum_at in H as [_ H]. rewrite cumsum_length in H.
    replace (S (length pdf - 1)) with (length pdf) in H by (destruct pdf; [congruence|simpl; lia]).
    rewrite mass_before_all, Ht in H. rewrite H. unfold eps_cdf; lra.
Qed.

Lemma searchsorted_pdf_lt : forall pdf x, is_pdf pdf -> x <= 1 ->
  (searchsorted (cumsum pdf) x < length pdf)%nat.
Proof.
  intros pdf x [Hp Ht] Hx.
  assert (Hne : pdf <> []). { intros ->. unfold total in Ht; simpl in Ht; lra. }
  assert (Hl : (length pdf - 1 < length pdf)%nat) by (destruct pdf; [congruence|simpl; lia]).
  destruct (cumsum_at_ex pdf (length pdf - 1) Hl) as [c [Hc Ec]].
  replace (S (length pdf - 1)) with (length pdf) in Ec by lia. rewrite mass_before_all, Ht in Ec.
  assert (searchsorted (cumsum pdf) x <= length pdf - 1)%nat; [|lia].
  apply (searchsorted_le_iff _ x _ c); auto using cumsum_nondecreasing. lra.
Qed.

Lemma gridpt_le1 : forall n k, (k < n)%nat -> gridpt n k <= 1.
Proof.
  intros n k Hk. rewrite gridpt_le_iff. rewrite Qmult_1_l, Qfloor_Z. lia.
Qed.

Lemma real_population_exact : forall n pdf draws, (1 <= n)%nat -> is_pdf pdf ->
  exists counts, sample_population n pdf RealPopulation draws = Ok counts /\
  length counts = length pdf /\
  (forall k, at_ counts 0 k -> Z.of_nat k = points_up_to n (mass_before pdf 1)) /\
  (forall i k, at_ counts (S i) k ->
     Z.of_nat k = (points_up_to n (mass_before pdf (S (S i))) - points_up_to n (mass_before pdf (S i)))%Z).
Proof.
  intros n pdf draws Hn Hpdf. unfold sample_population. rewrite (check_pdf_ok pdf Hpdf). simpl.
  eexists; split; [reflexivity|].
  assert (Hlen : length (bincount (map (searchsorted (cumsum pdf)) (linspace01 n)) (length (cumsum pdf))) = length pdf).
  { rewrite cumsum_length. apply bincount_length. intros x Hx. rewrite linspace_grid in Hx.
    apply in_map_iff in Hx as [k [<- Hk]]. apply in_seq in Hk.
    apply searchsorted_pdf_lt; auto. apply gridpt_le1; lia. }
  split; [exact Hlen|].
  assert (Hcomp : forall n a b, a == b -> points_up_to n a = points_up_to n b).
  { intros m a b Hab. unfold points_up_to. f_equal. apply Qfloor_comp. rewrite Hab. reflexivity. }
  assert (Hle : forall i, (i < length pdf)%nat ->
    Z.of_nat (length (filter (fun k => Nat.leb (searchsorted (cumsum pdf) (gridpt n k)) i) (seq 0 n))) = points_up_to n (mass_before pdf (S i))).
  { intros i Hi. destruct (cumsum_at_ex pdf i Hi) as [c [Hc Ec]].
    rewrite <- (Hcomp n c _ Ec). destruct (pdf_cdf_bounds pdf i c Hpdf Hc).
    apply index_le_count; auto. destruct Hpdf; apply cumsum_nondecreasing; auto. }
  split.
  - intros k Hk. pose proof (at_lt _ _ _ _ Hk) as Hlt. rewrite Hlen in Hlt.
    apply bincount_nth in Hk. subst k. rewrite linspace_grid, count_nat_map_filter.
    rewrite <- (Hle 0%nat Hlt). f_equal. f_equal. apply filter_ext. intro k.
    destruct (searchsorted (cumsum pdf) (gridpt n k)); reflexivity.
  - intros i k Hk. pose proof (at_lt _ _ _ _ Hk) as Hlt. rewrite Hlen in Hlt.
    apply bincount_nth in Hk. subst k. rewrite linspace_grid, count_nat_map_filter.
    rewrite <- (Hle (S i) Hlt), <- (Hle i) by lia. rewrite filter_split. lia.
Qed.

Lemma floor_diff : forall a b, inject_Z (Qfloor b - Qfloor a) - (b - a) < 1 /\ -(1) < inject_Z (Qfloor b - Qfloor a) - (b - a).
Proof.
  intros a b. pose proof (Qfloor_le a). pose proof (Qlt_floor a). pose proof (Qfloor_le b). pose proof (Qlt_floor b).
  rewrite inject_Z_plus in *. unfold Z.sub. rewrite inject_Z_plus, inject_Z_opp.
  change (inject_Z 1) with 1 in *. split; lra.
Qed.

Lemma real_population_quota : forall n pdf draws, (1 <= n)%nat -> is_pdf pdf ->
  exists counts, sample_population n pdf RealPopulation draws = Ok counts /\
  length counts = length pdf /\
  (forall k p, at_ counts 0 k -> at_ pdf 0 p -> Z.of_nat k = (Qfloor (p * inject_Z (Z.of_nat n - 1)) + 1)%Z) /\
  (forall i k p, (0 < i)%nat -> at_ counts i k -> at_ pdf i p ->
     inject_Z (Z.of_nat k) - p * inject_Z (Z.of_nat n - 1) < 1 /\
     -(1) < inject_Z (Z.of_nat k) - p * inject_Z (Z.of_nat n - 1) /\
     (p == 0 -> k = 0%nat)).
Proof.
  intros n pdf draws Hn Hpdf.
  destruct (real_population_exact n pdf draws Hn Hpdf) as (counts & Hc & Hl & H0 & HS).
  exists counts. split; [exact Hc|]. split; [exact Hl|]. split.
  - intros k p Hk Hp. rewrite (H0 k Hk). unfold points_up_to. f_equal. apply Qfloor_comp.
    rewrite (mass_step pdf 0 p Hp). unfold mass_before; simpl. ring.
  - intros i k p Hi Hk Hp. destruct i as [|i]; [lia|]. rewrite (HS i k Hk).
    pose proof (mass_step pdf (S i) p Hp) as Hs. unfold points_up_to.
    set (m := inject_Z (Z.of_nat n - 1)). set (a := mass_before pdf (S i)) in *. set (b := mass_before pdf (S (S i))) in *.
    replace (Qfloor (b * m) + 1 - (Qfloor (a * m) + 1))%Z with (Qfloor (b * m) - Qfloor (a * m))%Z by lia.
    destruct (floor_diff (a * m) (b * m)) as [F1 F2].
    assert (E : b * m - a * m == p * m) by (rewrite Hs; ring).
    repeat split.
    + rewrite E in F1. exact F1.
    + rewrite E in F2. exact F2.
    + intro Hz. specialize (HS i k Hk). unfold points_up_to in HS. fold a b m in HS.
      rewrite (Qfloor_comp (b * m) (a * m)) in HS; [lia|]. rewrite Hs, Hz. ring.
Qed.
