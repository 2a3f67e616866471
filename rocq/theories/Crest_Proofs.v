(** * Proofs about the other data of CREST. *)

From Coq Require Import String List ZArith QArith Bool Arith Lia Lqa.
From Verif Require Import Prelude PreludeFacts SpecBase SpecBaseFacts Sampling_Model Sampling_Spec Sampling_Proofs
  Subgroup_Model Appliance_Model OwnDict_Spec Crest_Model Crest_Spec Crest_TpmProofs.
Import ListNotations.

(** ** Starting states *)

Lemma put_sum : forall l i, total l == nth i l 0 + total (put l i 0).
Proof.
  induction l as [|x l IH]; intros [|i]; unfold total in *; cbn [put fold_right nth]; try ring.
  rewrite (IH i) at 1. ring.
Qed.

Lemma put_nth : forall l i j, i <> j -> nth j (put l i 0) 0 = nth j l 0.
Proof. induction l as [|x l IH]; intros [|i] [|j] H; cbn; try reflexivity; try congruence. apply IH. congruence. Qed.

Lemma put_put_at : forall l i v j x, at_ (put l i v) j x -> j <> i -> at_ l j x.
Proof. intros l i v j x H N. apply put_at in H as [[E _]|[_ A]]; [congruence|exact A]. Qed.

Lemma total_pick : forall idx l, NoDup idx -> (forall i x, at_ l i x -> ~ In i idx -> x == 0) ->
  total (map (fun i => nth i l 0) idx) == total l.
Proof.
  induction idx as [|i idx IH]; intros l N Z.
  - cbn. symmetry. rewrite total_qsum. apply qsum_zero. apply Forall_forall. intros x Hx. apply in_at in Hx as [k Hk]. apply (Z k x Hk). auto.
  - inversion N as [|? ? Hn N']; subst. cbn [map]. unfold total at 1. cbn [fold_right]. fold (total (map (fun i => nth i l 0) idx)).
    rewrite (put_sum l i). rewrite <- (IH (put l i 0) N').
    + rewrite (map_ext_in (fun j => nth j (put l i 0) 0) (fun j => nth j l 0)); [reflexivity|].
      intros j Hj. apply put_nth. intro. subst. contradiction.
    + intros j x Hx Hj. apply put_at in Hx as [[-> ->]|[Ne A]]; [reflexivity|]. apply (Z j x A). intros [E|E]; [congruence|contradiction].
Qed.

Lemma mask_in : forall n i, (i < (n + 1) * (n + 1))%nat -> is_state n i (i / (n + 1)) (i mod (n + 1)).
Proof.
  intros n i H. pose proof (Nat.mod_upper_bound i (n + 1) ltac:(lia)). pose proof (Nat.div_mod i (n + 1) ltac:(lia)).
  assert (i / (n + 1) < n + 1)%nat by (apply Nat.div_lt_upper_bound; lia). split; [lia|]. split; [lia|]. lia.
Qed.

Lemma mask_nodup : forall n, (n <= 6)%nat -> NoDup (start_mask n).
Proof.
  intros n Hn. apply NoDup_nth_error. intros i j Hi E.
  assert (Hj : (j < length (start_mask n))%nat) by (apply nth_error_Some; rewrite <- E; apply nth_error_Some; exact Hi).
  rewrite mask_length in Hi, Hj. pose proof (mask_in n i Hi) as Si. pose proof (mask_in n j Hj) as Sj.
  rewrite (mask_at _ _ _ _ Si), (mask_at _ _ _ _ Sj) in E. injection E as E.
  destruct Si as (A1 & A2 & A3). destruct Sj as (B1 & B2 & B3).
  assert (i / (n + 1) = j / (n + 1) /\ i mod (n + 1) = j mod (n + 1))%nat as [E1 E2] by lia. rewrite A3, B3, E1, E2. reflexivity.
Qed.

Lemma mask_mem : forall n x, (exists a b, (a <= n)%nat /\ (b <= n)%nat /\ x = (7 * a + b)%nat) <-> In x (start_mask n).
Proof.
  intros n x. split.
  - intros (a & b & Ha & Hb & ->). eapply at_in, (mask_at n (a * (n + 1) + b)). split; [exact Ha|]. split; [exact Hb|reflexivity].
  - intro H. apply in_at in H as [i Hi]. pose proof (at_lt _ _ _ _ Hi) as L. rewrite mask_length in L.
    pose proof (mask_in n i L) as S. rewrite (at_fun _ _ _ _ _ Hi (mask_at _ _ _ _ S)). destruct S as (A & B & _). eauto.
Qed.

Lemma pick_nth : forall A (l : list A) idx out, mapM (take_at l) idx = Ok out ->
  length out = length idx /\ forall i k, at_ idx i k -> exists x, at_ out i x /\ at_ l k x.
Proof.
  intros A l idx out H. destruct (mapM_ok _ _ _ _ _ H) as [L M]. split; [exact L|]. intros i k Hk. destruct (M i k Hk) as (y & Y1 & Y2).
  exists y. split; [exact Y1|]. unfold take_at in Y2. unfold at_. destruct (nth_error l k); [congruence|discriminate].
Qed.

Lemma pick_total : forall l idx out, mapM (take_at l) idx = Ok out -> NoDup idx -> (forall i x, at_ l i x -> ~ In i idx -> x == 0) ->
  total out == total l.
Proof.
  intros l idx out H N Z. rewrite <- (total_pick idx l N Z). clear N Z. revert out H.
  induction idx as [|i idx IH]; intros out H; [injection H as <-; reflexivity|]. cbn [mapM] in H. unfold take_at at 1 in H.
  destruct (nth_error l i) as [x|] eqn:E; [|discriminate]. cbn [bind] in H. destruct (mapM (take_at l) idx) as [o|]; [|discriminate].
  cbn [bind] in H. injection H as <-. cbn [map]. unfold total in *. cbn [fold_right]. rewrite (IH o eq_refl), (nth_error_nth _ _ _ E). reflexivity.
Qed.

Lemma pick_ok : forall A (l : list A) idx, (forall i, In i idx -> (i < length l)%nat) <-> exists out, mapM (take_at l) idx = Ok out.
Proof.
  intros A l. induction idx as [|i idx IH]; split; intro H.
  - eexists; reflexivity.
  - intros i [].
  - cbn [mapM]. unfold take_at at 1. destruct (lt_at _ l i) as [x Hx]; [apply H; left; reflexivity|]. unfold at_ in Hx. rewrite Hx. cbn [bind].
    destruct (proj1 IH) as [o ->]; [intros j Hj; apply H; right; exact Hj|]. cbn. eauto.
  - destruct H as [out H]. cbn [mapM] in H. unfold take_at at 1 in H. destruct (nth_error l i) as [x|] eqn:E; [|discriminate].
    cbn [bind] in H. destruct (mapM (take_at l) idx) as [o|] eqn:Eo; [|discriminate]. intros j [<-|Hj]; [apply nth_error_Some; rewrite E; discriminate|].
    apply (proj2 IH); [eauto|exact Hj].
Qed.

(** ** Activity profiles *)

Lemma flat_one : forall A (rows : list (list A)) j, Forall (fun r => (j < length r)%nat) rows ->
  length (flat_map (fun row => match nth_error row j with Some x => [x] | None => [] end) rows) = length rows /\
  forall r x, at_ (flat_map (fun row => match nth_error row j with Some x => [x] | None => [] end) rows) r x <-> exists row, at_ rows r row /\ at_ row j x.
Proof.
  intros A rows j F. induction F as [|row rows H F [L IH]].
  - split; [reflexivity|]. intros [|r] x; (split; [discriminate|]; intros (row & H & _); discriminate).
  - destruct (lt_at _ row j H) as [y Hy]. cbn [flat_map]. unfold at_ in Hy. rewrite Hy. cbn [List.app]. split; [cbn; rewrite L; reflexivity|].
    intros [|r] x; unfold at_; cbn [nth_error].
    + split; [intro E; exists row; rewrite Hy; auto|]. intros (row' & E1 & E2). congruence.
    + apply IH.
Qed.

Lemma transposed_spec : forall w rows, Forall (fun r => length r = w) rows ->
  length (transposed_flat w rows) = (w * length rows)%nat /\
  forall t r x row, at_ rows r row -> at_ row t x -> at_ (transposed_flat w rows) (t * length rows + r) x.
Proof.
  intros w rows F. unfold transposed_flat. rewrite flat_map_concat_map.
  assert (G : Forall (fun c => length c = length rows) (map (fun j => flat_map (fun row => match nth_error row j with Some x => [x] | None => [] end) rows) (seq 0 w))).
  { apply Forall_forall. intros c Hc. apply in_map_iff in Hc as (j & <- & Hj). apply in_seq in Hj.
    apply flat_one. eapply Forall_impl; [|exact F]. cbn. intros r E. lia. }
  split; [rewrite (concat_length_n _ _ _ G), map_length, seq_length; reflexivity|].
  intros t r x row Hr Hx. assert (Ht : (t < w)%nat).
  { rewrite Forall_forall in F. rewrite <- (F row (at_in _ _ _ _ Hr)). exact (at_lt _ _ _ _ Hx). }
  eapply at_concat; [exact G| |].
  - unfold at_. rewrite nth_error_map, seq_nth_error by exact Ht. reflexivity.
  - cbn. apply flat_one; [|eauto]. eapply Forall_impl; [|exact F]. cbn. intros r0 E. lia.
Qed.

Section Profiles.
  Variables (nt no na : nat) (rows : list (list Q)).
  Hypothesis square : Forall (fun r => length r = nt) rows.
  Hypothesis number : length rows = (no * na)%nat.

  Lemma reshape3_ok : exists pdf, reshape3 nt no na (transposed_flat nt rows) = Ok pdf /\ length pdf = nt /\
    forall t m, at_ pdf t m -> length m = no /\ forall o r, at_ m o r -> length r = na /\
      forall a x, at_ r a x <-> (a < na)%nat /\ exists row, at_ rows (o * na + a) row /\ at_ row t x.
  Proof.
    destruct (transposed_spec nt rows square) as [L T]. unfold reshape3. rewrite L, number, Nat.eqb_refl. eexists. split; [reflexivity|].
    split; [rewrite map_length; apply chunks_length|]. intros t m Hm. unfold at_ in Hm. rewrite nth_error_map in Hm.
    destruct (nth_error (chunks nt (no * na) (transposed_flat nt rows)) t) as [c|] eqn:Ec; [|discriminate]. injection Hm as <-.
    rewrite number in L. destruct (chunks_at _ _ _ _ _ _ L Ec) as (Ht & Lc & Cc). split; [apply chunks_length|].
    intros o r Hr. destruct (chunks_at _ _ _ _ _ _ Lc Hr) as (Ho & Lr & Cr). split; [exact Lr|].
    assert (G : forall a, (a < na)%nat -> exists x row, at_ r a x /\ at_ rows (o * na + a) row /\ at_ row t x).
    { intros a Ha. destruct (lt_at _ r a) as [x Hx]; [lia|]. exists x. destruct (lt_at _ rows (o * na + a)) as [row Hrow]; [rewrite number; nia|].
      exists row. split; [exact Hx|]. split; [exact Hrow|].
      destruct (lt_at _ row t) as [y Hy]; [rewrite Forall_forall in square; rewrite (square row (at_in _ _ _ _ Hrow)); exact Ht|].
      pose proof (Cc _ _ (Cr a x Hx)) as E1. pose proof (T t (o * na + a)%nat y row Hrow Hy) as E2. rewrite number in E2.
      rewrite (at_fun _ _ _ _ _ E1 E2). exact Hy. }
    intros a x. split.
    - intro Hx. assert (Ha : (a < na)%nat) by (rewrite <- Lr; exact (at_lt _ _ _ _ Hx)). split; [exact Ha|].
      destruct (G a Ha) as (x' & row & E1 & E2 & E3). exists row. split; [exact E2|]. rewrite (at_fun _ _ _ _ _ Hx E1). exact E3.
    - intros (Ha & row & E2 & E3). destruct (G a Ha) as (x' & row' & F1 & F2 & F3).
      rewrite (at_fun _ _ _ _ _ F2 E2) in F3. rewrite (at_fun _ _ _ _ _ E3 F3). exact F1.
  Qed.

  (** Rows after lines 418-426. *)
  Lemma extended : forall pdf, reshape3 nt no na (transposed_flat nt rows) = Ok pdf ->
    let full := with_active (with_level pdf) in
    length full = nt /\ forall t m, at_ full t m -> length m = no /\ forall o r, at_ m o r -> length r = (na + 2)%nat /\
      forall a x, at_ r a x <-> ((a < na)%nat /\ exists row, at_ rows (o * na + a) row /\ at_ row t x) \/ (a = na /\ x = 1) \/ (a = S na /\ x = if Nat.eqb o 0 then 0 else 1).
  Proof.
    intros pdf E full. destruct reshape3_ok as (pdf' & E' & L & H). rewrite E in E'. injection E' as <-.
    split; [unfold full, with_active, with_level; rewrite !map_length; exact L|].
    intros t m Hm. unfold full, with_active, with_level, at_ in Hm. rewrite !nth_error_map in Hm.
    destruct (nth_error pdf t) as [m0|] eqn:Em; [|discriminate]. destruct (H t m0 Em) as [Lm Hm0]. cbn [option_map] in Hm.
    assert (X : forall r0 v, length r0 = na -> forall a x, at_ (List.app (List.app r0 [1]) [v]) a x <->
      at_ r0 a x \/ (a = na /\ x = 1) \/ (a = S na /\ x = v)).
    { intros r0 v Lr a x. unfold at_. destruct (lt_dec a na) as [Ha|Ha].
      - rewrite !nth_error_app1; [|lia|rewrite List.app_length; simpl; lia]. split; [auto|]. intros [?|[[? _]|[? _]]]; [assumption|lia|lia].
      - destruct (Nat.eq_dec a na) as [->|N1].
        + rewrite nth_error_app1 by (rewrite List.app_length; simpl; lia). rewrite nth_error_app2 by lia. rewrite Lr, Nat.sub_diag. change (nth_error [1] 0) with (Some 1).
          split; [intro Y; injection Y as <-; auto|]. intros [Y|[[_ ->]|[Y _]]]; [|reflexivity|lia].
          assert (na < length r0)%nat by (apply nth_error_Some; rewrite Y; discriminate). lia.
        + rewrite nth_error_app2 by (rewrite List.app_length; simpl; lia). rewrite List.app_length. cbn [length]. destruct (Nat.eq_dec a (S na)) as [->|N2].
          * replace (S na - (length r0 + 1))%nat with 0%nat by lia. change (nth_error [v] 0) with (Some v). split; [intro Y; injection Y as <-; auto|].
            intros [Y|[[Y _]|[_ ->]]]; [|lia|reflexivity]. assert (S na < length r0)%nat by (apply nth_error_Some; rewrite Y; discriminate). lia.
          * destruct (a - (length r0 + 1))%nat as [|k] eqn:Ek; [lia|]. split; [cbn; destruct k; discriminate|].
            intros [Y|[[Y _]|[Y _]]]; [|lia|lia]. assert (a < length r0)%nat by (apply nth_error_Some; rewrite Y; discriminate). lia. }
    destruct m0 as [|r0 m0].
    - injection Hm as <-. cbn in Lm. split; [exact Lm|]. intros [|o] r Hr; discriminate.
    - cbn [map] in Hm. injection Hm as <-. split; [cbn [length] in *; rewrite !map_length; exact Lm|]. intros o r Hr.
      destruct o as [|o]; unfold at_ in Hr; cbn [nth_error] in Hr.
      + injection Hr as <-. destruct (Hm0 0%nat r0 eq_refl) as [Lr Hr0]. split; [rewrite !List.app_length; simpl; lia|].
        intros a x. rewrite (X r0 0 Lr). rewrite Hr0. reflexivity.
      + rewrite !nth_error_map in Hr. destruct (nth_error m0 o) as [r1|] eqn:E1; [|discriminate]. injection Hr as <-.
        destruct (Hm0 (S o) r1 E1) as [Lr Hr1]. split; [rewrite !List.app_length; simpl; lia|].
        intros a x. rewrite (X r1 1 Lr). rewrite Hr1. reflexivity.
  Qed.

  Lemma profile_at : forall pdf, reshape3 nt no na (transposed_flat nt rows) = Ok pdf ->
    forall a, (a < na + 2)%nat -> forall t o x, at3 (profile_of (with_active (with_level pdf)) a) t o x <->
      (t < nt)%nat /\ (o < no)%nat /\
      (((a < na)%nat /\ exists row, at_ rows (o * na + a) row /\ at_ row t x) \/ (a = na /\ x = 1) \/ (a = S na /\ x = if Nat.eqb o 0 then 0 else 1)).
  Proof.
    intros pdf E a Ha t o x. destruct (extended pdf E) as [L H]. set (full := with_active (with_level pdf)) in *.
    unfold at3, profile_of. split.
    - intros (l & Hl & Hx). unfold at_ in Hl. rewrite nth_error_map in Hl. destruct (nth_error full t) as [m|] eqn:Em; [|discriminate].
      injection Hl as <-. destruct (H t m Em) as [Lm Hm].
      assert (F : Forall (fun r => (a < length r)%nat) m).
      { apply Forall_forall. intros r Hr. apply in_at in Hr as [o' Hr]. rewrite (proj1 (Hm o' r Hr)). exact Ha. }
      destruct (flat_one _ m a F) as [_ FO]. apply FO in Hx as (r & Hr & Hx).
      split; [rewrite <- L; apply nth_error_Some; rewrite Em; discriminate|]. split; [rewrite <- Lm; exact (at_lt _ _ _ _ Hr)|].
      apply (proj2 (Hm o r Hr)). exact Hx.
    - intros (Ht & Ho & Hx). destruct (lt_at _ full t) as [m Em]; [lia|]. destruct (H t m Em) as [Lm Hm].
      assert (F : Forall (fun r => (a < length r)%nat) m).
      { apply Forall_forall. intros r Hr. apply in_at in Hr as [o' Hr]. rewrite (proj1 (Hm o' r Hr)). exact Ha. }
      eexists. split; [unfold at_ in *; rewrite nth_error_map, Em; reflexivity|]. apply (flat_one _ m a F).
      destruct (lt_at _ m o) as [r Hr]; [lia|]. exists r. split; [exact Hr|]. apply (proj2 (Hm o r Hr)). exact Hx.
  Qed.
End Profiles.

Lemma dict_of_get : forall V (l : list (string * V)) d k, ~ In k (map fst l) -> dget String.eqb (dict_of d l) k = dget String.eqb d k.
Proof.
  intros V. induction l as [|[k0 v0] l IH]; intros d k H; [reflexivity|]. cbn [dict_of]. cbn [map fst In] in H.
  rewrite IH by tauto. apply (PreludeFacts.dget_dset_other _ _ _ String.eqb_eq). intro. subst. tauto.
Qed.

Lemma dict_of_nodup : forall V (l : list (string * V)) d i k v, NoDup (map fst l) -> at_ l i (k, v) -> dget String.eqb (dict_of d l) k = Some v.
Proof.
  intros V. induction l as [|[k0 v0] l IH]; intros d i k v N H; [destruct i; discriminate|]. cbn [map fst] in N. inversion N as [|? ? Hn N']; subst.
  cbn [dict_of]. destruct i as [|i].
  - injection H as <- <-. rewrite dict_of_get by exact Hn. apply (PreludeFacts.dget_dset_same _ _ _ String.eqb_eq).
  - exact (IH _ i k v N' H).
Qed.

Lemma dict_of_keys : forall V (l : list (string * V)) d k, dget String.eqb (dict_of d l) k <> None -> dget String.eqb d k <> None \/ In k (map fst l).
Proof.
  intros V l d k H. destruct (in_dec string_dec k (map fst l)) as [I|I]; [auto|]. rewrite dict_of_get in H by exact I. auto.
Qed.

Lemma at_combine : forall A B (l : list A) (m : list B) i x y, at_ l i x -> at_ m i y -> at_ (combine l m) i (x, y).
Proof.
  intros A B. unfold at_. induction l as [|a l IH]; intros [|b m] [|i] x y H1 H2; try discriminate; cbn in *; [congruence|auto].
Qed.

(** ** Bulbs *)

Lemma bulbs_same : forall house, flat_map is_bulb house = bulbs_of house.
Proof.
  intro house. unfold bulbs_of. induction house as [|[x|] house IH]; cbn [flat_map is_bulb List.app]; [reflexivity| |exact IH].
  cbn [filter]. unfold Qltb. destruct (Qle_bool x 0); cbn [negb List.app]; [exact IH|f_equal; exact IH].
Qed.

Definition weigh (f : Q -> Q) (l : list (Q * nat)) : Q := qsum (map (fun c => inject_Z (Z.of_nat (snd c)) * f (fst c)) l).

Lemma count_weigh : forall f, (forall x y, x == y -> f x == f y) -> forall x l, weigh f (count_in x l) == f x + weigh f l.
Proof.
  intros f C x. induction l as [|[y n] l IH]; unfold weigh in *; cbn [count_in map qsum fst snd].
  - cbn. ring.
  - destruct (Qcompare x y) eqn:E; cbn [map qsum fst snd].
    + apply Qeq_alt in E. rewrite (C x y E). rewrite Nat2Z.inj_succ. unfold Z.succ. rewrite inject_Z_plus. ring.
    + cbn. ring.
    + rewrite IH. ring.
Qed.

Lemma unique_weigh : forall f, (forall x y, x == y -> f x == f y) -> forall l, weigh f (unique_counts l) == qsum (map f l).
Proof.
  intros f C l. unfold unique_counts. rewrite <- fold_left_rev_right.
  assert (G : forall l, weigh f (fold_right (fun x acc => count_in x acc) [] l) == qsum (map f l)).
  { induction l0 as [|x l0 IH]; [reflexivity|]. cbn [fold_right map qsum]. rewrite count_weigh by exact C. rewrite IH. ring. }
  rewrite G. clear. induction l as [|x l IH]; [reflexivity|]. cbn [rev map qsum]. rewrite map_app, qsum_app, IH. cbn. ring.
Qed.

Inductive sorted : list (Q * nat) -> Prop :=
| sorted_nil : sorted []
| sorted_cons : forall x n l, (0 < n)%nat -> (forall y m, In (y, m) l -> x < y) -> sorted l -> sorted ((x, n) :: l).

Lemma count_in_in : forall x l y m, In (y, m) (count_in x l) -> y == x \/ exists m', In (y, m') l.
Proof.
  intros x. induction l as [|[z n] l IH]; intros y m H; cbn [count_in] in H.
  - destruct H as [H|[]]. injection H as <- _. left. reflexivity.
  - destruct (Qcompare x z) eqn:E; cbn [In] in H.
    + destruct H as [H|H]; [injection H as <- <-; right; exists n; left; reflexivity|right; exists m; right; exact H].
    + destruct H as [H|H]; [injection H as <- _; left; reflexivity|right; exists m; exact H].
    + destruct H as [H|H]; [injection H as <- <-; right; exists n; left; reflexivity|].
      destruct (IH y m H) as [|[m' Hm]]; [left; assumption|right; exists m'; right; exact Hm].
Qed.

Lemma count_sorted : forall x l, sorted l -> sorted (count_in x l).
Proof.
  intros x l S. induction S as [|z n l Hn Hl S IH]; cbn [count_in]; [constructor; [lia|intros y m []|constructor]|].
  destruct (Qcompare x z) eqn:E.
  - constructor; [lia|exact Hl|exact S].
  - apply Qlt_alt in E. constructor; [lia| |constructor; assumption]. intros y m [H|H]; [injection H as <- _; exact E|].
    specialize (Hl y m H). lra.
  - apply Qgt_alt in E. constructor; [exact Hn| |exact IH]. intros y m H. destruct (count_in_in x l y m H) as [Eq|[m' Hm]]; [rewrite Eq; exact E|eauto].
Qed.

Lemma unique_sorted : forall l, sorted (unique_counts l).
Proof.
  intro l. unfold unique_counts. assert (G : forall l a, sorted a -> sorted (fold_left (fun acc x => count_in x acc) l a)).
  { induction l0 as [|x l0 IH]; intros a S; [exact S|]. cbn. apply IH, count_sorted, S. }
  apply G. constructor.
Qed.

Lemma sorted_increasing : forall l, sorted l -> increasing (map fst l).
Proof.
  intros l S. induction S as [|z n l Hn Hl S IH]; intros i j x y Hij Hx Hy; [destruct i; discriminate|].
  destruct j as [|j]; [lia|]. unfold at_ in Hx, Hy. cbn in Hx, Hy. destruct i as [|i].
  - injection Hx as <-. rewrite nth_error_map in Hy. destruct (nth_error l j) as [[y' m]|] eqn:E; [|discriminate]. injection Hy as <-.
    exact (Hl y' m (nth_error_In _ _ E)).
  - cbn in Hx. apply (IH i j x y); [lia|exact Hx|exact Hy].
Qed.

Definition indicator (c x : Q) : Q := if Qeq_bool x c then 1 else 0.
Lemma indicator_proper : forall c x y, x == y -> indicator c x == indicator c y.
Proof. intros c x y H. unfold indicator. rewrite H. reflexivity. Qed.

Lemma weigh_one : forall l c n, sorted l -> In (c, n) l -> weigh (indicator c) l == inject_Z (Z.of_nat n).
Proof.
  intros l c n S. induction S as [|z k l Hk Hl S IH]; intro H; [destruct H|]. unfold weigh in *. cbn [map qsum fst snd].
  destruct H as [H|H].
  - injection H as -> ->. unfold indicator at 1. rewrite (Qeq_eq_bool c c (Qeq_refl c)).
    assert (Z : qsum (map (fun c0 => inject_Z (Z.of_nat (snd c0)) * indicator c (fst c0)) l) == 0).
    { clear -Hl. induction l as [|[y m] l IH]; [reflexivity|]. cbn [map qsum fst snd]. rewrite IH by (intros y' m' H; apply (Hl y' m'); right; exact H).
      unfold indicator. destruct (Qeq_bool y c) eqn:E; [|ring]. apply Qeq_bool_eq in E. specialize (Hl y m (or_introl eq_refl)). lra. }
    rewrite Z. ring.
  - rewrite (IH H). unfold indicator at 1. destruct (Qeq_bool z c) eqn:E; [|ring]. apply Qeq_bool_eq in E. specialize (Hl c n H). lra.
Qed.

Lemma number_indicator : forall c l, qsum (map (indicator c) l) == inject_Z (Z.of_nat (number_of c l)).
Proof.
  intros c l. unfold number_of. induction l as [|x l IH]; [reflexivity|]. cbn [map qsum filter]. rewrite IH. unfold indicator.
  destruct (Qeq_bool x c); [|ring]. cbn [length]. rewrite Nat2Z.inj_succ. unfold Z.succ. rewrite inject_Z_plus. ring.
Qed.

Lemma count_present : forall x l, exists y m, In (y, m) (count_in x l) /\ y == x.
Proof.
  intros x. induction l as [|[z n] l (y & m & H & E)]; cbn [count_in]; [exists x, 1%nat; split; [left; reflexivity|reflexivity]|].
  destruct (Qcompare x z) eqn:Ec.
  - apply Qeq_alt in Ec. exists z, (S n). split; [left; reflexivity|symmetry; exact Ec].
  - exists x, 1%nat. split; [left; reflexivity|reflexivity].
  - exists y, m. split; [right; exact H|exact E].
Qed.

Lemma count_kept : forall x l y m, In (y, m) l -> exists m', In (y, m') (count_in x l).
Proof.
  intros x. induction l as [|[z n] l IH]; intros y m H; [destruct H|]. cbn [count_in]. destruct (Qcompare x z); destruct H as [H|H].
  - injection H as <- <-. exists (S n). left. reflexivity.
  - exists m. right. exact H.
  - exists m. right. left. exact H.
  - exists m. right. right. exact H.
  - exists m. left. exact H.
  - destruct (IH y m H) as [m' H']. exists m'. right. exact H'.
Qed.

Lemma unique_present : forall l x, In x l -> exists y m, In (y, m) (unique_counts l) /\ y == x.
Proof.
  intro l. unfold unique_counts.
  assert (K : forall l a y m, In (y, m) a -> exists m', In (y, m') (fold_left (fun acc x => count_in x acc) l a)).
  { induction l0 as [|x0 l0 IH]; intros a y m H; [eauto|]. cbn. destruct (count_kept x0 a y m H) as [m' H']. exact (IH _ _ _ H'). }
  assert (G : forall l a x, In x l -> exists y m, In (y, m) (fold_left (fun acc x => count_in x acc) l a) /\ y == x).
  { induction l0 as [|x0 l0 IH]; intros a x H; [destruct H|]. cbn. destruct H as [<-|H]; [|exact (IH _ _ H)].
    destruct (count_present x0 a) as (y & m & H & E). destruct (K l0 _ _ _ H) as [m' H']. eauto. }
  intros x. apply G.
Qed.

Lemma unique_origin : forall l c n, In (c, n) (unique_counts l) -> exists x, In x l /\ c == x.
Proof.
  intro l. unfold unique_counts.
  assert (G : forall l a c n, In (c, n) (fold_left (fun acc x => count_in x acc) l a) -> (exists x, In x l /\ c == x) \/ exists m, In (c, m) a).
  { induction l0 as [|x0 l0 IH]; intros a c n H; [right; eauto|]. cbn in H. destruct (IH _ _ _ H) as [(x & X & E)|[m Hm]].
    - left. exists x. split; [right; exact X|exact E].
    - destruct (count_in_in _ _ _ _ Hm) as [E|Hm']; [left; exists x0; split; [left; reflexivity|exact E]|right; exact Hm']. }
  intros c n H. destruct (G l [] c n H) as [|[m []]]; assumption.
Qed.
