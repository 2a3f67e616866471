(** * Proofs about the start of an appliance simulation. *)

From Coq Require Import String List ZArith QArith Bool Arith Lia.
From Verif Require Import Prelude PreludeFacts SpecBase SpecBaseFacts Parse_Model Appliance_Model Appliance_Spec AppSetup_Model AppSetup_Spec.
From Verif Require Import Matrix_Proofs Appliance_Proofs Appliance_TypeProofs.
Import ListNotations.
Local Open Scope nat_scope.

(** ** Subgroups *)

Lemma zsum_total : forall l, zsum l = total_Z l. Proof. reflexivity. Qed.

Lemma numbered_length : forall cs i, Forall (fun c => 0 <= c)%Z cs -> Z.of_nat (length (numbered i cs)) = total_Z cs.
Proof.
  induction cs as [|c cs IH]; intros i F; [reflexivity|]. inversion F; subst. simpl.
  rewrite List.app_length, repeat_length, Nat2Z.inj_add, IH by assumption. lia.
Qed.

Lemma numbered_at : forall cs h i k, Forall (fun c => 0 <= c)%Z cs ->
  (at_ (numbered k cs) h i <-> exists i', i = k + i' /\ belongs cs h i').
Proof.
  unfold at_, belongs. induction cs as [|c cs IH]; intros h i k F.
  - simpl. split; [destruct h; discriminate|]. intros (i' & _ & c & E & _). destruct i'; discriminate.
  - inversion F as [|? ? Fc F']; subst. simpl numbered. destruct (Nat.lt_ge_cases h (Z.to_nat c)) as [L|L].
    + rewrite nth_error_app1 by (rewrite repeat_length; exact L).
      rewrite (nth_error_repeat _ L). split.
      * intro E. injection E as <-. exists 0. split; [lia|]. exists c. split; [reflexivity|]. simpl. lia.
      * intros (i' & -> & c' & E & B). destruct i' as [|i']; [f_equal; lia|]. exfalso. simpl in B, E.
        assert (P : (0 <= total_Z (firstn i' cs))%Z).
        { clear - F'. revert i'. induction F' as [|c cs Hc F IH]; intro i'; [rewrite firstn_nil; simpl; lia|].
          destruct i'; simpl; [lia|]. specialize (IH i'). lia. }
        lia.
    + rewrite nth_error_app2 by (rewrite repeat_length; exact L). rewrite repeat_length, IH by assumption. split.
      * intros (i' & -> & c' & E & B). exists (S i'). split; [lia|]. exists c'. split; [exact E|]. simpl. lia.
      * intros (i' & -> & c' & E & B). destruct i' as [|i'].
        { exfalso. simpl in B, E. injection E as <-. lia. }
        exists i'. split; [lia|]. exists c'. split; [exact E|]. simpl in B. lia.
Qed.

Lemma parse_ok : forall S (none : S) n subs cs subs' hh, parse_subgroups none n (Some subs) (Some cs) = Ok (subs', hh) ->
  subs' = subs /\ total_Z cs = Z.of_nat n /\ Forall (fun c => 0 <= c)%Z cs /\ hh = numbered 0 cs.
Proof.
  unfold parse_subgroups. intros S none n subs cs subs' hh. rewrite zsum_total. destruct (Z.eqb_spec (total_Z cs) (Z.of_nat n)); [|discriminate]. simpl.
  destruct (existsb _ cs) eqn:E; [discriminate|]. destruct cs as [|c cs]; [discriminate|]. intro H. injection H as <- <-.
  repeat split; auto. apply Forall_forall. intros x Hx. destruct (Z.ltb_spec x 0); [|lia].
  assert (X : existsb (fun c0 : Z => (c0 <? 0)%Z) (c :: cs) = true); [|congruence].
  apply existsb_exists. exists x. split; [exact Hx|]. apply Z.ltb_lt. assumption.
Qed.

Lemma parse_total : forall S (none : S) n subs cs, total_Z cs = Z.of_nat n -> Forall (fun c => 0 <= c)%Z cs -> cs <> [] ->
  exists hh, parse_subgroups none n (Some subs) (Some cs) = Ok (subs, hh).
Proof.
  unfold parse_subgroups. intros S none n subs cs Hs F Hn. rewrite zsum_total, Hs, Z.eqb_refl. simpl.
  destruct (existsb _ cs) eqn:E.
  - exfalso. apply existsb_exists in E. destruct E as (x & Hx & L). rewrite Forall_forall in F. specialize (F x Hx). apply Z.ltb_lt in L. lia.
  - destruct cs; [contradiction|eauto].
Qed.

(** ** Ownership *)

Lemma mapM_at : forall A B (f : A -> result B) l out, mapM f l = Ok out ->
  length out = length l /\ forall k y, at_ out k y <-> exists x, at_ l k x /\ f x = Ok y.
Proof.
  intros A B f l out H. destruct (mapM_ok _ _ _ _ _ H) as [L A1]. split; [exact L|]. intros k y. unfold at_ in *. split.
  - intro E. assert (K : k < length l) by (rewrite <- L; apply nth_error_Some; congruence).
    destruct (nth_error l k) as [x|] eqn:Ex; [|apply nth_error_None in Ex; lia].
    exists x. split; [reflexivity|]. destruct (A1 k x Ex) as (y' & E' & F). congruence.
  - intros (x & E & F). destruct (A1 k x E) as (y' & E' & F'). congruence.
Qed.

Lemma basic_at : forall u n equipped own, sample_available_appliances Basic u n equipped = Ok own ->
  shaped n (length equipped) own /\
  forall h j b, at2 own h j b <-> h < n /\ exists p, at_ equipped j p /\ b = Qltb (u h j) p.
Proof.
  intros u n equipped own H. injection H as <-. split.
  - split; [rewrite map_length, seq_length; reflexivity|]. intros h row E. apply at_map in E. destruct E as (x & E & ->).
    rewrite map2_length, seq_length. lia.
  - intros h j b. unfold at2. split.
    + intros (row & E & Eb). apply at_map in E. destruct E as (x & E & ->). apply at_seq in E. destruct E as (L & ->).
      apply at_map2 in Eb. destruct Eb as (x & p & Ex & Ep & ->). apply at_seq in Ex. destruct Ex as (_ & ->). split; [exact L|]. eauto.
    + intros (L & p & Ep & ->). eexists. split; [apply at_map; exists h; split; [apply at_seq; auto|reflexivity]|].
      apply at_map2. exists j, p. repeat split; [|exact Ep]. apply at_seq. split; [|reflexivity].
      apply nth_error_Some. unfold at_ in Ep. congruence.
Qed.

Lemma all_at : forall u n equipped own, sample_available_appliances AllApps u n equipped = Ok own ->
  shaped n (length equipped) own /\ forall h j, h < n -> j < length equipped -> at2 own h j true.
Proof.
  intros u n equipped own H. injection H as <-. split.
  - split; [apply repeat_length|]. intros h row E. unfold at_ in E.
    assert (L : h < n). { rewrite <- (repeat_length (repeat true (length equipped)) n). apply nth_error_Some. congruence. }
    rewrite (nth_error_repeat _ L) in E. injection E as <-. apply repeat_length.
  - intros h j L1 L2. exists (repeat true (length equipped)). unfold at_. rewrite (nth_error_repeat _ L1), (nth_error_repeat _ L2). auto.
Qed.

Lemma subgroup_at : forall u types defaults dicts hh own, sample_from_subgroup u types defaults dicts hh = Ok own ->
  shaped (length hh) (length types) own /\
  forall h j b, at2 own h j b <-> exists i d P p, at_ hh h i /\ at_ dicts i d /\ get_target_from_dict types defaults d = Ok P /\ at_ P j p /\ b = Qltb (u h j) p.
Proof.
  unfold sample_from_subgroup. intros u types defaults dicts hh own H.
  destruct (mapM _ dicts) as [probs|e] eqn:E1; [|discriminate]. simpl in H.
  destruct (mapM (vget probs) hh) as [avail|e] eqn:E2; [|discriminate]. simpl in H. injection H as <-.
  destruct (mapM_at _ _ _ _ _ E1) as [L1 A1]. destruct (mapM_at _ _ _ _ _ E2) as [L2 A2].
  assert (R : forall h row, at_ avail h row <-> exists i d, at_ hh h i /\ at_ dicts i d /\ get_target_from_dict types defaults d = Ok row).
  { intros h row. rewrite A2. split.
    - intros (i & Ei & V). apply vget_ok in V. apply A1 in V. destruct V as (d & Ed & G). eauto.
    - intros (i & d & Ei & Ed & G). exists i. split; [exact Ei|]. apply vget_ok, A1. eauto. }
  split.
  - split; [unfold draw_below; rewrite map2_length, seq_length; lia|]. intros h row E.
    unfold draw_below in E. apply at_map2 in E. destruct E as (h' & r & _ & Er & ->). rewrite map2_length, seq_length, Nat.min_id.
    apply R in Er. destruct Er as (i & d & _ & _ & G). apply target_spec in G. tauto.
  - intros h j b. rewrite draw_below_at. unfold at2. split.
    + intros (p & (row & Er & Ep) & ->). apply R in Er. destruct Er as (i & d & Ei & Ed & G). exists i, d, row, p. auto.
    + intros (i & d & P & p & Ei & Ed & G & Ep & ->). exists p. split; [|reflexivity]. exists P. split; [apply R; eauto|exact Ep].
Qed.

Lemma subgroup_total : forall u types defaults dicts hh, length defaults = length types ->
  (forall h i, at_ hh h i -> i < length dicts) -> exists own, sample_from_subgroup u types defaults dicts hh = Ok own.
Proof.
  intros u types defaults dicts hh L Hh. unfold sample_from_subgroup.
  destruct (mapM_total _ _ (get_ownership_from_dict types defaults) dicts) as [probs E1].
  { intros d _. apply target_total. exact L. }
  rewrite E1. simpl. destruct (mapM_total _ _ (vget probs) hh) as [avail E2].
  { intros i Hi. apply In_nth_error in Hi. destruct Hi as [h Eh]. specialize (Hh h i Eh).
    destruct (mapM_ok _ _ _ _ _ E1) as [Lp _]. destruct (nth_error probs i) as [r|] eqn:E; [|apply nth_error_None in E; lia].
    exists r. apply vget_ok. exact E. }
  rewrite E2. simpl. eauto.
Qed.

Lemma set_at : forall names sets k hh own, appliance_set names sets k hh = Ok own ->
  shaped (length hh) (length names) own /\
  forall h j b, at2 own h j b <-> exists i l set name, at_ hh h i /\ i < k /\ sets = Some l /\ at_ l i set /\ at_ names j name /\ b = str_in name set.
Proof.
  unfold appliance_set. intros names sets k hh own H. destruct (mapM _ (seq 0 k)) as [rows|e] eqn:E1; [|discriminate]. simpl in H.
  destruct (mapM_at _ _ _ _ _ E1) as [L1 A1]. destruct (mapM_at _ _ _ _ _ H) as [L2 A2]. rewrite seq_length in L1.
  assert (R : forall h row, at_ own h row <-> exists i l set, at_ hh h i /\ i < k /\ sets = Some l /\ at_ l i set /\ row = map (fun name => str_in name set) names).
  { intros h row. rewrite A2. split.
    - intros (i & Ei & V). apply vget_ok in V. apply A1 in V. destruct V as (x & Ex & F). apply at_seq in Ex. destruct Ex as (Li & ->). simpl in F.
      destruct sets as [l|]; [|discriminate]. destruct (vget l i) as [set|] eqn:Ev; [|discriminate]. simpl in F. injection F as <-.
      apply vget_ok in Ev. exists i, l, set. auto 6.
    - intros (i & l & set & Ei & Li & -> & Es & ->). exists i. split; [exact Ei|]. apply vget_ok, A1. exists i. split; [apply at_seq; auto|].
      apply vget_ok in Es. rewrite Es. reflexivity. }
  split.
  - split; [exact L2|]. intros h row E. apply R in E. destruct E as (i & l & set & _ & _ & _ & _ & ->). apply map_length.
  - intros h j b. unfold at2. split.
    + intros (row & Er & Eb). apply R in Er. destruct Er as (i & l & set & E1' & E2 & E3 & E4 & ->). apply at_map in Eb. destruct Eb as (name & En & ->).
      exists i, l, set, name. auto 7.
    + intros (i & l & set & name & E1' & E2 & E3 & E4 & E5 & ->). eexists. split; [apply R; exists i, l, set; auto 6|]. apply at_map. eauto.
Qed.

(** ** Load profiles *)

Lemma always_on_spec : forall r, always_on r = true <-> whole_day r.
Proof.
  intro r. unfold always_on. rewrite str_in_In. unfold whole_day. simpl. intuition congruence.
Qed.

Lemma dget_known : forall real t, (exists ps, dget String.eqb real t = Some ps) <-> known real t.
Proof.
  unfold known. induction real as [|[k v] real IH]; intro t; simpl.
  - split; [intros [? H]; discriminate|intros [? []]].
  - destruct (String.eqb_spec t k) as [->|N].
    + split; [intros [ps E]; injection E as <-; exists v; auto|eauto].
    + rewrite IH. split; intros [ps H]; exists ps; [auto|]. destruct H as [H|H]; [congruence|exact H].
Qed.

Lemma str_in_known : forall real t, str_in t (map fst real) = true <-> known real t.
Proof.
  intros real t. rewrite str_in_In, in_map_iff. unfold known. split.
  - intros ([k v] & <- & H). simpl. eauto.
  - intros [ps H]. exists (t, ps). auto.
Qed.

Lemma list_max_le : forall l x, In x l -> x <= list_max_nat l.
Proof.
  intros l x. unfold list_max_nat. induction l as [|y l IH]; simpl; [contradiction|]. intros [->|H]; [lia|]. specialize (IH H). lia.
Qed.

Lemma of_type_spec : forall types t h j, of_type types t (h, j) = true <-> at_ types j t.
Proof.
  intros types t h j. unfold of_type, at_. simpl. destruct (nth_error types j) as [t'|]; [|split; discriminate].
  rewrite String.eqb_eq. split; intro H; [subst; reflexivity|congruence].
Qed.

Lemma assign_ok : forall own types real pick L t L', known real t -> assign_type own types real pick L t = Ok L' ->
  l_variable L' = l_variable L /\
  (forall n k, shaped n k (l_id L) -> shaped n k (l_dur L) -> shaped n k (l_id L') /\ shaped n k (l_dur L')) /\
  (forall t', t' <> t -> dget String.eqb (l_dict L') t' = dget String.eqb (l_dict L) t') /\
  (forall h j, at_ types j t -> at2 own h j true -> exists id dur, assigned L' h j id dur /\ follows real t (l_dict L') id dur) /\
  (forall h j id dur, ~ (at_ types j t /\ at2 own h j true) -> (assigned L' h j id dur <-> assigned L h j id dur)).
Proof.
  unfold assign_type. intros own types real pick L t L' K H. apply dget_known in K. destruct K as [ps Eps]. rewrite Eps in H.
  destruct ps as [|p0 ps0]; [discriminate|]. remember (p0 :: ps0) as ps eqn:Hps. clear p0 ps0 Hps.
  set (pos := filter (of_type types t) (where2 own)) in *.
  destruct (mput _ (l_id L)) as [ids|e] eqn:E1; [|discriminate]. cbn [bind] in H.
  destruct (mapM _ pos) as [ds|e] eqn:E2; [|discriminate]. cbn [bind] in H.
  destruct (mput ds (l_dur L)) as [durs|e] eqn:E3; [|discriminate]. cbn [bind] in H. injection H as <-. simpl.
  destruct (mput_ok _ _ _ _ E1) as (A1 & B1 & C1). destruct (mput_ok _ _ _ _ E3) as (A3 & B3 & C3).
  assert (Pos : forall h j, In (h, j) pos <-> at_ types j t /\ at2 own h j true).
  { intros h j. unfold pos. rewrite filter_In, where2_in, of_type_spec. tauto. }
  assert (D : forall k d, In (k, d) ds <-> In k pos /\ exists p, vget (map snd ps) (pick (fst k) (snd k)) = Ok p /\ d = length p).
  { destruct (mapM_at _ _ _ _ _ E2) as [Ld Ad]. intros k d. split.
    - intro I. apply In_nth_error in I. destruct I as [m Em]. apply Ad in Em. destruct Em as (k' & Ek & F).
      destruct (vget _ _) as [p|] eqn:Ev; [|discriminate]. injection F as <- <-. split; [eapply nth_error_In; exact Ek|eauto].
    - intros (I & p & V & ->). apply In_nth_error in I. destruct I as [m Em]. apply (nth_error_In ds m). apply Ad. exists k. split; [exact Em|].
      rewrite V. reflexivity. }
  assert (Kd : forall h j, In (h, j) (map fst ds) -> In (h, j) pos).
  { intros h j I. apply in_map_iff in I. destruct I as ([k d] & Ek & I). simpl in Ek. subst k. apply D in I. tauto. }
  split; [reflexivity|]. split; [|split; [|split]].
  - intros n k S1 S2. split; auto.
  - intros t' N. apply dget_dset_other. exact N.
  - intros h j Ej Ow. assert (I : In (h, j) pos) by (apply Pos; auto).
    destruct (A1 h j) as (v & Iv & Av).
    { exists (pick h j). apply in_map_iff. exists (h, j). auto. }
    apply in_map_iff in Iv. destruct Iv as ([h' j'] & Ev & _). injection Ev as -> -> <-. simpl in Av.
    assert (Ip : exists p, vget (map snd ps) (pick h j) = Ok p).
    { destruct (mapM_ok _ _ _ _ _ E2) as [_ M]. apply In_nth_error in I. destruct I as [m Em]. destruct (M m _ Em) as (y & _ & F). simpl in F.
      destruct (vget _ _) as [p|]; [eauto|discriminate]. }
    destruct Ip as [p V]. destruct (A3 h j) as (d & Id & Ad).
    { exists (length p). apply D. split; [exact I|]. exists p. auto. }
    apply D in Id. destruct Id as (_ & p' & V' & ->). simpl in V'. rewrite V in V'. injection V' as <-.
    exists (pick h j), (length p). split; [split; assumption|].
    apply vget_ok in V. pose proof V as V0. apply at_map in V. destruct V as ([name p'] & Ep & ->). simpl in *.
    exists ps, name, p', (map (pad (list_max_nat (map (@length Q) (map snd ps)))) (map snd ps)), (repeat 0%Q (list_max_nat (map (@length Q) (map snd ps)) - length p')).
    repeat split; auto.
    + apply dget_dset_same.
    + apply at_map. exists p'. split; [exact V0|reflexivity].
    + apply Forall_forall. intros x Hx. apply repeat_spec in Hx. exact Hx.
  - intros h j id dur N. unfold assigned. simpl. rewrite B1, B3; [tauto| |].
    + intro I. apply N, Pos, Kd. exact I.
    + intro I. apply N, Pos. rewrite map_map in I. apply in_map_iff in I. destruct I as (k & Ek & I). simpl in Ek. subst k. exact I.
Qed.

Lemma assign_total : forall own types real pick L t n k, shaped n k own -> shaped n k (l_id L) -> shaped n k (l_dur L) ->
  picks types real pick -> dget String.eqb real t <> Some [] -> exists L', assign_type own types real pick L t = Ok L'.
Proof.
  unfold assign_type. intros own types real pick L t n k So Si Sd P N.
  destruct (dget String.eqb real t) as [ps|] eqn:E; [|eauto]. destruct ps as [|p0 ps0]; [contradiction|].
  remember (p0 :: ps0) as ps eqn:Hps. clear p0 ps0 Hps N.
  set (pos := filter (of_type types t) (where2 own)).
  assert (Pos : forall h j, In (h, j) pos -> (h < n /\ j < k) /\ at_ types j t).
  { intros h j I. unfold pos in I. rewrite filter_In, where2_in, of_type_spec in I. destruct I as [I T]. split; [|exact T]. exact (at2_shaped _ _ _ _ _ _ _ So I). }
  destruct (mput_total _ (map (fun k0 => (k0, pick (fst k0) (snd k0))) pos) (l_id L) n k Si) as [ids E1].
  { intros h j v I. apply in_map_iff in I. destruct I as ([h' j'] & Ek & I). injection Ek as -> -> _. apply Pos. exact I. }
  rewrite E1. cbn [bind].
  destruct (mapM_total _ _ (fun k0 : nat * nat => bind (vget (map snd ps) (pick (fst k0) (snd k0))) (fun p => Ok (k0, length p))) pos) as [ds E2].
  { intros [h j] I. destruct (Pos _ _ I) as [_ T]. specialize (P h j t ps T E). simpl.
    destruct (nth_error (map snd ps) (pick h j)) as [p|] eqn:En.
    - exists ((h, j), length p). unfold vget. rewrite En. reflexivity.
    - apply nth_error_None in En. rewrite map_length in En. lia. }
  rewrite E2. cbn [bind].
  destruct (mput_total _ ds (l_dur L) n k Sd) as [durs E3].
  { intros h j v I. apply In_nth_error in I. destruct I as [m Em]. destruct (mapM_at _ _ _ _ _ E2) as [_ M2]. apply M2 in Em. destruct Em as (k0 & Ek & F).
    destruct (vget _ _) as [p|]; [|discriminate]. injection F as -> _. apply Pos. eapply nth_error_In. exact Ek. }
  rewrite E3. cbn [bind]. eauto.
Qed.

Lemma fold_ok : forall own types real pick ts L L', NoDup ts -> (forall t, In t ts -> known real t) ->
  fold_result (assign_type own types real pick) ts L = Ok L' ->
  l_variable L' = l_variable L /\
  (forall n k, shaped n k (l_id L) -> shaped n k (l_dur L) -> shaped n k (l_id L') /\ shaped n k (l_dur L')) /\
  (forall t, ~ In t ts -> dget String.eqb (l_dict L') t = dget String.eqb (l_dict L) t) /\
  (forall h j t, at_ types j t -> at2 own h j true -> In t ts -> exists id dur, assigned L' h j id dur /\ follows real t (l_dict L') id dur) /\
  (forall h j id dur, (forall t, at_ types j t -> at2 own h j true -> ~ In t ts) -> (assigned L' h j id dur <-> assigned L h j id dur)).
Proof.
  induction ts as [|t ts IH]; simpl; intros L L' ND K H.
  { injection H as <-. split; [reflexivity|]. split; [auto|]. split; [auto|]. split; [contradiction|]. tauto. }
  destruct (assign_type own types real pick L t) as [L1|e] eqn:E; [|discriminate]. cbn [bind] in H.
  destruct (assign_ok _ _ _ _ _ _ _ (K t (or_introl eq_refl)) E) as (A1 & A2 & A3 & A4 & A5).
  inversion ND as [|? ? Nt ND']; subst. destruct (IH L1 L' ND' (fun t' I => K t' (or_intror I)) H) as (B1 & B2 & B3 & B4 & B5).
  split; [congruence|]. split; [|split; [|split]].
  - intros n k S1 S2. destruct (A2 n k S1 S2). apply B2; assumption.
  - intros t' N. rewrite B3, A3; auto.
  - intros h j t' Et Ow I. destruct (in_dec string_dec t' ts) as [I'|N]; [eauto|].
    destruct I as [->|I]; [|contradiction].
    destruct (A4 h j Et Ow) as (id & dur & As & (ps & name & p & rows & zeros & F1 & F2 & F3 & F4 & F5 & F6)). exists id, dur. split.
    + apply B5; [|exact As]. intros t'' Et' _. unfold at_ in *. replace t'' with t' by congruence. exact N.
    + exists ps, name, p, rows, zeros. repeat split; auto. rewrite B3 by exact N. exact F4.
  - intros h j id dur N. rewrite B5, A5; [tauto| |].
    + intros [Et Ow]. apply (N t Et Ow). left. reflexivity.
    + intros t' Et Ow I. apply (N t' Et Ow). right. exact I.
Qed.

Lemma fold_total : forall own types real pick n k, shaped n k own -> picks types real pick ->
  forall ts L, NoDup ts -> (forall t, In t ts -> known real t) -> shaped n k (l_id L) -> shaped n k (l_dur L) ->
  (forall t, In t ts -> dget String.eqb real t <> Some []) ->
  exists L', fold_result (assign_type own types real pick) ts L = Ok L'.
Proof.
  intros own types real pick n k So P. induction ts as [|t ts IH]; simpl; intros L ND K Si Sd N; [eauto|].
  destruct (assign_total own types real pick L t n k So Si Sd P (N t (or_introl eq_refl))) as [L1 E]. rewrite E. cbn [bind].
  destruct (assign_ok _ _ _ _ _ _ _ (K t (or_introl eq_refl)) E) as (_ & A2 & _). destruct (A2 n k Si Sd).
  inversion ND; subst. apply IH; auto.
Qed.

Lemma compress_at : forall A m (l : list A) x, In x (compress m l) <-> exists i, at_ m i true /\ at_ l i x.
Proof.
  unfold at_. induction m as [|b m IH]; intros [|y l] x; simpl.
  - split; [contradiction|intros (i & H & _); destruct i; discriminate].
  - split; [contradiction|intros (i & H & _); destruct i; discriminate].
  - split; [destruct b; contradiction|intros (i & _ & H); destruct i; discriminate].
  - assert (R : In x (compress m l) <-> exists i, nth_error (b :: m) (S i) = Some true /\ nth_error (y :: l) (S i) = Some x) by (simpl; apply IH).
    destruct b; simpl.
    + rewrite R. split.
      * intros [->|(i & H1 & H2)]; [exists 0; auto|exists (S i); auto].
      * intros ([|i] & H1 & H2); [left; simpl in H2; congruence|right; exists i; auto].
    + rewrite R. split.
      * intros (i & H1 & H2); exists (S i); auto.
      * intros ([|i] & H1 & H2); [discriminate|exists i; auto].
Qed.

(** The types a pass visits: those of an appliance of the kind with data. *)
Definition visited (always : bool) (types related : list string) (real : real_loads) (t : string) : Prop :=
  known real t /\ exists j r, at_ types j t /\ at_ related j r /\ always_on r = always.

Lemma kind_mask_at : forall always types related real j b, at_ (kind_mask always types related real) j b <->
  exists t r, at_ types j t /\ at_ related j r /\ b = str_in t (map fst real) && Bool.eqb (always_on r) always.
Proof. intros. unfold kind_mask. apply at_map2. Qed.

Lemma visited_spec : forall always types related real t,
  In t (nodup string_dec (compress (kind_mask always types related real) types)) <-> visited always types related real t.
Proof.
  intros always types related real t. rewrite nodup_In, compress_at. unfold visited. split.
  - intros (j & M & Et). apply kind_mask_at in M. destruct M as (t' & r & Et' & Er & B). unfold at_ in *. replace t' with t in * by congruence.
    symmetry in B. apply andb_true_iff in B. destruct B as [B1 B2]. apply str_in_known in B1. apply eqb_prop in B2. split; [exact B1|]. exists j, r. auto.
  - intros (K & j & r & Et & Er & A). exists j. split; [|exact Et]. apply kind_mask_at. exists t, r. repeat split; auto.
    symmetry. apply andb_true_iff. split; [apply str_in_known; exact K|rewrite A; apply eqb_reflx].
Qed.

Lemma kind_ok : forall always own types related real pick L L', sample_kind always own types related real pick L = Ok L' ->
  (forall j b, at_ (l_variable L') j b <-> exists b0 t r, at_ (l_variable L) j b0 /\ at_ types j t /\ at_ related j r /\
     b = b0 || (str_in t (map fst real) && Bool.eqb (always_on r) always)) /\
  (forall n k, shaped n k (l_id L) -> shaped n k (l_dur L) -> shaped n k (l_id L') /\ shaped n k (l_dur L')) /\
  (forall t, ~ visited always types related real t -> dget String.eqb (l_dict L') t = dget String.eqb (l_dict L) t) /\
  (forall h j t, at_ types j t -> at2 own h j true -> visited always types related real t ->
     exists id dur, assigned L' h j id dur /\ follows real t (l_dict L') id dur) /\
  (forall h j id dur, (forall t, at_ types j t -> at2 own h j true -> ~ visited always types related real t) ->
     (assigned L' h j id dur <-> assigned L h j id dur)).
Proof.
  unfold sample_kind. intros always own types related real pick L L' H. apply fold_ok in H.
  - destruct H as (A1 & A2 & A3 & A4 & A5). simpl in *. split; [|split; [exact A2|split; [|split]]].
    + intros j b. rewrite A1, at_map2. split.
      * intros (b0 & m & E0 & Em & ->). apply kind_mask_at in Em. destruct Em as (t & r & Et & Er & ->). exists b0, t, r. auto.
      * intros (b0 & t & r & E0 & Et & Er & ->). exists b0. eexists. split; [exact E0|]. split; [|reflexivity]. apply kind_mask_at. exists t, r. auto.
    + intros t N. apply A3. rewrite visited_spec. exact N.
    + intros h j t Et Ow V. apply A4; auto. apply visited_spec. exact V.
    + intros h j id dur N. rewrite A5; [unfold assigned; simpl; tauto|]. intros t Et Ow. rewrite visited_spec. auto.
  - apply NoDup_nodup.
  - intros t I. apply visited_spec in I. apply I.
Qed.

Lemma kind_total : forall always own types related real pick L n k, shaped n k own -> picks types real pick ->
  shaped n k (l_id L) -> shaped n k (l_dur L) -> (forall t, visited always types related real t -> dget String.eqb real t <> Some []) ->
  exists L', sample_kind always own types related real pick L = Ok L'.
Proof.
  intros. unfold sample_kind. eapply fold_total; eauto; simpl; auto.
  - apply NoDup_nodup.
  - intros t I. apply visited_spec in I. apply I.
  - intros t I. apply visited_spec in I. auto.
Qed.

(** ** All passes *)

Definition zero_loads (own : list (list bool)) (types : list string) : loads :=
  mkLoads (map (fun _ => false) types) (map (map (fun _ => 0)) own) (map (map (fun _ => 0)) own) [].

Lemma zero_assigned : forall own types h j id dur b, at2 own h j b -> (assigned (zero_loads own types) h j id dur <-> id = 0 /\ dur = 0).
Proof.
  intros own types h j id dur b E. unfold assigned, zero_loads. simpl. rewrite !at2_map. split.
  - intros [(x & _ & ->) (y & _ & ->)]. auto.
  - intros [-> ->]. split; exists b; auto.
Qed.

Lemma not_whole : forall r, always_on r = false <-> ~ whole_day r.
Proof. intro r. rewrite <- always_on_spec. destruct (always_on r); split; congruence. Qed.

Lemma sample_real_unfold : forall algo own types related sw fu p1 p2,
  sample_real_load_profiles algo own types related sw fu p1 p2 =
  match algo with
  | Nothing => Ok (zero_loads own types)
  | OnlyAlwaysOn => bind fu (fun real => sample_kind true own types related real p2 (zero_loads own types))
  | OnlySwitchedOn => bind sw (fun real => sample_kind false own types related real p1 (zero_loads own types))
  | Uniform => bind (bind sw (fun real => sample_kind false own types related real p1 (zero_loads own types))) (fun L1 =>
      bind fu (fun real => sample_kind true own types related real p2 L1))
  | OtherAlgo => Err ValueError
  end.
Proof. intros. destruct algo; reflexivity. Qed.

Lemma zero_shaped : forall own types n k, shaped n k own -> shaped n k (l_id (zero_loads own types)) /\ shaped n k (l_dur (zero_loads own types)).
Proof. intros own types n k S. split; apply shaped_map; exact S. Qed.

Lemma real_shape : forall algo own types related sw fu p1 p2 L n k,
  sample_real_load_profiles algo own types related sw fu p1 p2 = Ok L -> shaped n k own ->
  shaped n k (l_id L) /\ shaped n k (l_dur L).
Proof.
  intros algo own types related sw fu p1 p2 L n k H So. destruct (zero_shaped own types n k So) as [Z1 Z2]. rewrite sample_real_unfold in H. destruct algo.
  - injection H as <-. split; assumption.
  - destruct fu as [real|]; [|discriminate]. cbn [bind] in H. apply kind_ok in H. apply (proj1 (proj2 H)); assumption.
  - destruct sw as [real|]; [|discriminate]. cbn [bind] in H. apply kind_ok in H. apply (proj1 (proj2 H)); assumption.
  - destruct sw as [real|]; [|discriminate]. cbn [bind] in H. destruct (sample_kind false _ _ _ _ _ _) as [L1|] eqn:E; [|discriminate]. cbn [bind] in H.
    destruct fu as [real'|]; [|discriminate]. cbn [bind] in H. apply kind_ok in H. apply kind_ok in E.
    destruct (proj1 (proj2 E) n k Z1 Z2). apply (proj1 (proj2 H)); assumption.
  - discriminate.
Qed.

Lemma zero_var : forall own types j b, at_ (l_variable (zero_loads own types)) j b <-> b = false /\ exists t, at_ types j t.
Proof.
  intros. simpl. rewrite at_map. split; [intros (t & E & ->); eauto|intros (-> & t & E); eauto].
Qed.

Lemma mask_true_iff : forall real t r always, str_in t (map fst real) && Bool.eqb (always_on r) always = true <-> known real t /\ always_on r = always.
Proof.
  intros. rewrite andb_true_iff, str_in_known. split; intros [A B]; split; auto; [apply eqb_prop; exact B|rewrite B; apply eqb_reflx].
Qed.

Lemma real_variable : forall algo own types related sw fu p1 p2 L, length related = length types ->
  sample_real_load_profiles algo own types related sw fu p1 p2 = Ok L ->
  (forall j b, at_ (l_variable L) j b -> j < length types) /\
  forall j t r, at_ types j t -> at_ related j r -> exists b, at_ (l_variable L) j b /\ (b = true <-> exists real, source algo sw fu r real /\ known real t).
Proof.
  intros algo own types related sw fu p1 p2 L Lr H. rewrite sample_real_unfold in H. unfold source.
  assert (LT : forall j (t : string), at_ types j t -> j < length types) by (intros j t E; apply nth_error_Some; unfold at_ in E; congruence).
  destruct algo.
  - injection H as <-. split.
    + intros j b E. apply zero_var in E. destruct E as (_ & t & E). eauto.
    + intros j t r Et Er. exists false. split; [apply zero_var; eauto|]. split; [discriminate|].
      intros (real & [(_ & [X|X] & _)|(_ & [X|X] & _)] & _); discriminate.
  - destruct fu as [real|]; [|discriminate]. cbn [bind] in H. apply kind_ok in H. destruct H as (V & _). split.
    + intros j b E. apply V in E. destruct E as (_ & t & r & _ & E & _). eauto.
    + intros j t r Et Er. eexists. split; [apply V; exists false, t, r; repeat split; [apply zero_var; eauto|exact Et|exact Er]|].
      rewrite orb_false_l, mask_true_iff, always_on_spec. split.
      * intros [K W]. exists real. split; [left; auto|exact K].
      * intros (real' & [(W & _ & E)|(_ & [X|X] & _)] & K); try discriminate. injection E as <-. auto.
  - destruct sw as [real|]; [|discriminate]. cbn [bind] in H. apply kind_ok in H. destruct H as (V & _). split.
    + intros j b E. apply V in E. destruct E as (_ & t & r & _ & E & _). eauto.
    + intros j t r Et Er. eexists. split; [apply V; exists false, t, r; repeat split; [apply zero_var; eauto|exact Et|exact Er]|].
      rewrite orb_false_l, mask_true_iff, not_whole. split.
      * intros [K W]. exists real. split; [right; auto|exact K].
      * intros (real' & [(_ & [X|X] & _)|(W & _ & E)] & K); try discriminate. injection E as <-. auto.
  - destruct sw as [real|]; [|discriminate]. cbn [bind] in H. destruct (sample_kind false _ _ _ _ _ _) as [L1|] eqn:E1; [|discriminate]. cbn [bind] in H.
    destruct fu as [real'|]; [|discriminate]. cbn [bind] in H. apply kind_ok in H. apply kind_ok in E1. destruct H as (V & _). destruct E1 as (V1 & _). split.
    + intros j b E. apply V in E. destruct E as (_ & t & r & _ & E & _). eauto.
    + intros j t r Et Er. eexists. split.
      { apply V. eexists. exists t, r. repeat split; [apply V1; exists false, t, r; repeat split; [apply zero_var; eauto|exact Et|exact Er]|exact Et|exact Er]. }
      rewrite orb_false_l, orb_true_iff, !mask_true_iff, always_on_spec, not_whole. split.
      * intros [[K W]|[K W]]; [exists real; split; [right|]|exists real'; split; [left|]]; auto.
      * intros (x & [(W & _ & E)|(W & _ & E)] & K); injection E as <-; auto.
  - discriminate.
Qed.

Lemma visited_full : forall types related real t, visited true types related real t <-> shares_type types related (Ok real) t.
Proof.
  intros. unfold visited, shares_type. split.
  - intros (K & j & r & Et & Er & A). apply always_on_spec in A. exists real, j, r. auto.
  - intros (real' & j & r & E & K & Et & Er & A). injection E as <-. apply always_on_spec in A. split; [exact K|]. exists j, r. auto.
Qed.

Lemma follows_dict : forall real t d d' id dur, dget String.eqb d' t = dget String.eqb d t -> follows real t d id dur -> follows real t d' id dur.
Proof.
  intros real t d d' id dur E (ps & name & p & rows & zeros & F1 & F2 & F3 & F4 & F5). exists ps, name, p, rows, zeros. rewrite E. auto 6.
Qed.

Lemma real_profile : forall algo own types related sw fu p1 p2 L h j t r,
  sample_real_load_profiles algo own types related sw fu p1 p2 = Ok L ->
  at_ types j t -> at_ related j r -> at2 own h j true -> (exists real, source algo sw fu r real /\ known real t) ->
  exists id dur real, assigned L h j id dur /\ follows real t (l_dict L) id dur /\ (sw = Ok real \/ fu = Ok real) /\
    (algo = Uniform -> ~ whole_day r -> ~ shares_type types related fu t -> sw = Ok real) /\
    (algo = Uniform -> whole_day r \/ shares_type types related fu t -> fu = Ok real) /\
    (algo <> Uniform -> source algo sw fu r real).
Proof.
  intros algo own types related sw fu p1 p2 L h j t r H Et Er Ow (real0 & So & Kn). rewrite sample_real_unfold in H. unfold source in *.
  destruct algo.
  - destruct So as [(_ & [X|X] & _)|(_ & [X|X] & _)]; discriminate.
  - destruct So as [(W & _ & E)|(_ & [X|X] & _)]; [|discriminate|discriminate]. subst fu. cbn [bind] in H.
    apply kind_ok in H. destruct H as (_ & _ & _ & A & _). destruct (A h j t Et Ow) as (id & dur & As & Fo).
    { split; [exact Kn|]. exists j, r. rewrite always_on_spec. auto. }
    exists id, dur, real0. split; [exact As|]. split; [exact Fo|]. split; [auto|]. split; [discriminate|]. split; [discriminate|]. intros _. left. auto.
  - destruct So as [(_ & [X|X] & _)|(W & _ & E)]; [discriminate|discriminate|]. subst sw. cbn [bind] in H.
    apply kind_ok in H. destruct H as (_ & _ & _ & A & _). destruct (A h j t Et Ow) as (id & dur & As & Fo).
    { split; [exact Kn|]. exists j, r. rewrite not_whole. auto. }
    exists id, dur, real0. split; [exact As|]. split; [exact Fo|]. split; [auto|]. split; [discriminate|]. split; [discriminate|]. intros _. right. auto.
  - destruct sw as [rs|]; [|discriminate]. cbn [bind] in H. destruct (sample_kind false _ _ _ _ _ _) as [L1|] eqn:E1; [|discriminate]. cbn [bind] in H.
    destruct fu as [rf|]; [|discriminate]. cbn [bind] in H.
    apply kind_ok in H. apply kind_ok in E1. destruct H as (_ & _ & D & A & N). destruct E1 as (_ & _ & D1 & A1 & N1).
    assert (Dec : shares_type types related (Ok rf) t \/ ~ shares_type types related (Ok rf) t).
    { rewrite <- visited_full, <- visited_spec. destruct (in_dec string_dec t (nodup string_dec (compress (kind_mask true types related rf) types))); auto. }
    assert (W' : whole_day r -> shares_type types related (Ok rf) t).
    { intro W. destruct So as [(_ & _ & E)|(W' & _)]; [|contradiction]. exists rf, j, r. split; [reflexivity|]. injection E as <-. auto. }
    destruct Dec as [Sh|Sh].
    + destruct (A h j t Et Ow) as (id & dur & As & Fo); [apply visited_full; exact Sh|].
      exists id, dur, rf. split; [exact As|]. split; [exact Fo|]. split; [auto|]. split; [contradiction|]. split; [auto|]. intro X. contradiction.
    + assert (NW : ~ whole_day r) by tauto. destruct So as [(W & _)|(_ & _ & E)]; [contradiction|]. injection E as <-.
      assert (V : visited false types related rs t) by (split; [exact Kn|]; exists j, r; rewrite not_whole; auto).
      destruct (A1 h j t Et Ow V) as (id & dur & As & Fo). exists id, dur, rs. split.
      { apply N; [|exact As]. intros t' Et' _ V'. unfold at_ in *. replace t' with t in V' by congruence. apply visited_full in V'. contradiction. }
      split. { eapply follows_dict; [|exact Fo]. apply D. intro V'. apply visited_full in V'. contradiction. }
      split; [auto|]. split; [auto|]. split; [tauto|]. intro X. contradiction.
  - discriminate.
Qed.

(** Appliances without an owner and types without a variable appliance. *)
Lemma real_constant : forall algo own types related sw fu p1 p2 L h j t b,
  sample_real_load_profiles algo own types related sw fu p1 p2 = Ok L -> at_ types j t -> at2 own h j b ->
  (b = false \/ forall j' r real, at_ types j' t -> at_ related j' r -> source algo sw fu r real -> ~ known real t) ->
  assigned L h j 0 0.
Proof.
  intros algo own types related sw fu p1 p2 L h j t b H Et Eb C. rewrite sample_real_unfold in H. unfold source in *.
  assert (Z0 : assigned (zero_loads own types) h j 0 0) by (apply (zero_assigned own types h j 0 0 b Eb); auto).
  assert (X : forall t', at_ types j t' -> t' = t) by (intros t' E; unfold at_ in *; congruence).
  assert (Y : at2 own h j true -> b = true) by (intro E; exact (at2_fun _ _ _ _ _ _ Eb E)).
  destruct algo.
  - injection H as <-. exact Z0.
  - destruct fu as [rf|]; [|discriminate]. cbn [bind] in H. apply kind_ok in H. destruct H as (_ & _ & _ & _ & N). apply N; [|exact Z0].
    intros t' Et' Ow (K & j' & r & Ej & Er & A). rewrite (X t' Et') in *. destruct C as [C|C]; [rewrite (Y Ow) in C; discriminate|].
    apply (C j' r rf Ej Er); auto. left. rewrite <- always_on_spec. auto.
  - destruct sw as [rs|]; [|discriminate]. cbn [bind] in H. apply kind_ok in H. destruct H as (_ & _ & _ & _ & N). apply N; [|exact Z0].
    intros t' Et' Ow (K & j' & r & Ej & Er & A). rewrite (X t' Et') in *. destruct C as [C|C]; [rewrite (Y Ow) in C; discriminate|].
    apply (C j' r rs Ej Er); auto. right. rewrite <- not_whole. auto.
  - destruct sw as [rs|]; [|discriminate]. cbn [bind] in H. destruct (sample_kind false _ _ _ _ _ _) as [L1|] eqn:E1; [|discriminate]. cbn [bind] in H.
    destruct fu as [rf|]; [|discriminate]. cbn [bind] in H. apply kind_ok in H. apply kind_ok in E1.
    destruct H as (_ & _ & _ & _ & N). destruct E1 as (_ & _ & _ & _ & N1). apply N.
    + intros t' Et' Ow (K & j' & r & Ej & Er & A). rewrite (X t' Et') in *. destruct C as [C|C]; [rewrite (Y Ow) in C; discriminate|].
      apply (C j' r rf Ej Er); auto. left. rewrite <- always_on_spec. auto.
    + apply N1; [|exact Z0]. intros t' Et' Ow (K & j' & r & Ej & Er & A). rewrite (X t' Et') in *. destruct C as [C|C]; [rewrite (Y Ow) in C; discriminate|].
      apply (C j' r rs Ej Er); auto. right. rewrite <- not_whole. auto.
  - discriminate.
Qed.

Lemma real_total : forall algo own types related rs rf p1 p2 n k, algo <> OtherAlgo -> shaped n k own ->
  picks types rs p1 -> picks types rf p2 ->
  (forall t, known rs t -> dget String.eqb rs t <> Some []) -> (forall t, known rf t -> dget String.eqb rf t <> Some []) ->
  exists L, sample_real_load_profiles algo own types related (Ok rs) (Ok rf) p1 p2 = Ok L.
Proof.
  intros algo own types related rs rf p1 p2 n k Ha So P1 P2 N1 N2. rewrite sample_real_unfold. destruct (zero_shaped own types n k So) as [Z1 Z2].
  destruct algo; cbn [bind].
  - eauto.
  - eapply kind_total; eauto. intros t V. apply N2. apply V.
  - eapply kind_total; eauto. intros t V. apply N1. apply V.
  - destruct (kind_total false own types related rs p1 (zero_loads own types) n k So P1 Z1 Z2) as [L1 E1]; [intros t V; apply N1; apply V|].
    rewrite E1. cbn [bind]. apply kind_ok in E1. destruct (proj1 (proj2 E1) n k Z1 Z2). eapply kind_total; eauto. intros t V. apply N2. apply V.
  - contradiction.
Qed.
