(** * Proofs about the transition matrices of CREST. *)

From Coq Require Import String List ZArith QArith Bool Arith Lia Lqa.
From Verif Require Import Prelude PreludeFacts SpecBase SpecBaseFacts Sampling_Model Sampling_Spec Sampling_Proofs
  Subgroup_Model Appliance_Model OwnDict_Spec Crest_Model Crest_Spec.
Import ListNotations.

(** ** Chunks *)

Lemma chunks_length : forall A n w (l : list A), length (chunks n w l) = n.
Proof. intros A n w. induction n as [|n IH]; intro l; simpl; [reflexivity|]. rewrite IH. reflexivity. Qed.

Lemma chunks_at : forall A n w (l : list A) i c, length l = (n * w)%nat -> at_ (chunks n w l) i c ->
  (i < n)%nat /\ length c = w /\ forall j x, at_ c j x -> at_ l (i * w + j) x.
Proof.
  intros A n w. induction n as [|n IH]; intros l i c Hl H; [destruct i; discriminate|].
  simpl in Hl. cbn [chunks] in H. destruct i as [|i].
  - injection H as <-. split; [lia|]. split; [rewrite firstn_length; lia|]. intros j x Hx. unfold at_ in *. simpl.
    rewrite <- (firstn_skipn w l). rewrite nth_error_app1; [exact Hx|]. apply nth_error_Some. rewrite Hx. discriminate.
  - cbn in H. destruct (IH (skipn w l) i c) as (A1 & A2 & A3); [rewrite skipn_length; lia|exact H|].
    split; [lia|]. split; [exact A2|]. intros j x Hx. specialize (A3 j x Hx). unfold at_ in *.
    rewrite <- (firstn_skipn w l). rewrite nth_error_app2; rewrite firstn_length; [|lia].
    replace (S i * w + j - Nat.min w (length l))%nat with (i * w + j)%nat by lia. exact A3.
Qed.

Lemma chunks_all : forall A n w (l : list A), length l = (n * w)%nat -> Forall (fun c => length c = w) (chunks n w l).
Proof. intros A n w l H. apply Forall_forall. intros c Hc. apply in_at in Hc as [i Hi]. exact (proj1 (proj2 (chunks_at _ _ _ _ _ _ H Hi))). Qed.

Lemma at_concat : forall A n (ll : list (list A)) t i l x, Forall (fun c => length c = n) ll ->
  at_ ll t l -> at_ l i x -> at_ (concat ll) (t * n + i) x.
Proof.
  intros A n. induction ll as [|l0 ll IH]; intros t i l x F Hl Hx; [destruct t; discriminate|].
  inversion F as [|? ? F0 F1]; subst. unfold at_ in *. cbn [concat]. destruct t as [|t].
  - injection Hl as ->. simpl. rewrite nth_error_app1; [exact Hx|]. apply nth_error_Some. rewrite Hx. discriminate.
  - cbn in Hl. rewrite nth_error_app2; [|lia]. replace (S t * length l0 + i - length l0)%nat with (t * length l0 + i)%nat by lia.
    eapply IH; eassumption.
Qed.

Lemma concat_length_n : forall A n (ll : list (list A)), Forall (fun c => length c = n) ll -> length (concat ll) = (length ll * n)%nat.
Proof. intros A n ll F. induction F as [|l ll H F IH]; [reflexivity|]. cbn [concat length]. rewrite List.app_length, IH, H. reflexivity. Qed.

Lemma at_firstn : forall A n (l : list A) j x, at_ (firstn n l) j x -> at_ l j x.
Proof.
  intros A n. unfold at_. induction n as [|n IH]; intros [|y l] [|j] x H; try discriminate; cbn in *; [exact H|auto].
Qed.
Lemma at_skipn : forall A n (l : list A) j x, at_ (skipn n l) j x -> at_ l (n + j) x.
Proof. intros A n. unfold at_. induction n as [|n IH]; intros [|y l] j x H; [destruct j; discriminate|exact H|destruct j; discriminate|cbn; auto]. Qed.

(** ** Rows that stay *)

Lemma put_length : forall l i v, length (put l i v) = length l.
Proof. induction l as [|x l IH]; intros [|i] v; simpl; try reflexivity. rewrite IH. reflexivity. Qed.

Lemma put_at : forall l i v j y, at_ (put l i v) j y -> (j = i /\ y = v) \/ (j <> i /\ at_ l j y).
Proof.
  induction l as [|x l IH]; intros [|i] v [|j] y H; try discriminate; cbn in H.
  - injection H as <-. auto.
  - right. split; [lia|exact H].
  - right. split; [lia|exact H].
  - destruct (IH i v j y H) as [[-> ->]|[N A]]; [auto|right; split; [lia|exact A]].
Qed.

Lemma put_total : forall l i v, (i < length l)%nat -> Forall (fun x => x == 0) l -> total (put l i v) == v.
Proof.
  induction l as [|x l IH]; intros i v Hi F; [simpl in Hi; lia|]. inversion F as [|? ? F0 F1]; subst.
  destruct i as [|i]; unfold total in *; cbn [put fold_right].
  - assert (E : fold_right Qplus 0 l == 0).
    { clear -F1. induction F1 as [|y l Hy F IH]; [reflexivity|]. cbn [fold_right]. rewrite Hy, IH. reflexivity. }
    rewrite E. ring.
  - rewrite F0, (IH i v); [ring|simpl in Hi; lia|exact F1].
Qed.

Lemma nonneg_zero : forall l, nonneg l -> total l == 0 -> Forall (fun x => x == 0) l.
Proof.
  intros l N T. apply nonneg_Forall in N. induction N as [|x l Hx N IH]; [constructor|].
  unfold total in *. cbn [fold_right] in T. assert (P : 0 <= fold_right Qplus 0 l).
  { clear -N. induction N as [|y l Hy N IH]; cbn [fold_right]; lra. }
  constructor; [lra|]. apply IH. lra.
Qed.

Lemma stay_from_length : forall m i, length (stay_from i m) = length m.
Proof. induction m as [|r m IH]; intro i; simpl; [reflexivity|]. rewrite IH. reflexivity. Qed.

Lemma stay_from_at : forall m s i r, at_ (stay_from s m) i r <-> exists r0, at_ m i r0 /\ r = if Qeq_bool (qsum r0) 0 then put r0 (s + i) 1 else r0.
Proof.
  induction m as [|r0 m IH]; intros s i r.
  - split; [destruct i; discriminate|]. intros (r0 & H & _). destruct i; discriminate.
  - destruct i as [|i]; unfold at_; cbn [stay_from nth_error].
    + rewrite Nat.add_0_r. split; [intro H; injection H as <-; eauto|]. intros (r1 & H & ->). injection H as <-. reflexivity.
    + change (at_ (stay_from (S s) m) i r <-> exists r1, at_ m i r1 /\ r = if Qeq_bool (qsum r1) 0 then put r1 (s + S i) 1 else r1).
      rewrite IH. replace (S s + i)%nat with (s + S i)%nat by lia. reflexivity.
Qed.

(** ** Matrices *)

Definition near (x : Q) : Prop := 9 # 10 < x /\ x < 11 # 10.

Lemma in_concat_at : forall A (ll : list (list A)) x, In x (concat ll) -> exists t l i, at_ ll t l /\ at_ l i x.
Proof.
  intros A ll x H. apply in_concat in H as (l & H1 & H2). apply in_at in H1 as [t H1]. apply in_at in H2 as [i H2]. eauto.
Qed.

Section Sheet.
  Variables (times n : nat) (sheet : list (list Q)).
  Hypothesis Hn : (0 < n)%nat.
  Hypothesis wide : wide_sheet n sheet.

  Let cols := state_columns n sheet.

  Lemma cols_all : Forall (fun c => length c = n) cols.
  Proof.
    apply Forall_forall. intros c Hc. apply in_map_iff in Hc as (row & <- & Hr). apply in_at in Hr as [r Hr].
    specialize (wide r row Hr). rewrite firstn_length, skipn_length. lia.
  Qed.

  Lemma cols_at : forall r c, at_ cols r c -> exists row, at_ sheet r row /\ numbers n row c.
  Proof.
    intros r c H. unfold cols, state_columns, at_ in H. rewrite nth_error_map in H.
    destruct (nth_error sheet r) as [row|] eqn:E; [|discriminate]. exists row. split; [exact E|].
    change (Some (firstn n (skipn 2 row)) = Some c) in H. assert (Ec : firstn n (skipn 2 row) = c) by congruence. clear H. subst c. specialize (wide r row E).
    split; [rewrite firstn_length, skipn_length; lia|].
    intros j x Hx. rewrite Nat.add_comm. apply at_skipn, (at_firstn _ n). exact Hx.
  Qed.

  Lemma reshape_ok : reshape_tpm times n sheet <> Err ValueError <-> length sheet = (times * n)%nat.
  Proof.
    unfold reshape_tpm. fold cols. rewrite (concat_length_n _ n cols cols_all). unfold cols, state_columns. rewrite map_length.
    destruct (Nat.eqb_spec (length sheet * n) (times * (n * n))) as [E|E]; split; intro H; try discriminate; try congruence.
    - nia.
    - exfalso. apply E. rewrite H. lia.
  Qed.

  Lemma reshape_at : forall a, reshape_tpm times n sheet = Ok a -> length a = times /\
    forall t m, at_ a t m -> (t < times)%nat /\ length m = n /\ forall i l, at_ m i l -> (i < n)%nat /\
      exists row, at_ sheet (t * n + i) row /\ numbers n row l.
  Proof.
    intros a H. unfold reshape_tpm in H. fold cols in H.
    destruct (Nat.eqb_spec (length (concat cols)) (times * (n * n))) as [E|]; [|discriminate]. injection H as <-.
    split; [rewrite map_length; apply chunks_length|]. intros t m Hm. unfold at_ in Hm. rewrite nth_error_map in Hm.
    destruct (nth_error (chunks times (n * n) (concat cols)) t) as [c|] eqn:Ec; [|discriminate]. injection Hm as <-.
    destruct (chunks_at _ _ _ _ _ _ E Ec) as (Ht & Lc & Cc). split; [exact Ht|]. split; [apply chunks_length|].
    intros i l Hl. destruct (chunks_at _ _ _ _ _ _ Lc Hl) as (Hi & Ll & Cl). split; [exact Hi|].
    assert (Hr : (t * n + i < length cols)%nat).
    { rewrite (concat_length_n _ n cols cols_all) in E. nia. }
    destruct (lt_at _ cols _ Hr) as [c' Hc']. destruct (cols_at _ _ Hc') as (row & R1 & R2). exists row. split; [exact R1|].
    replace l with c'; [exact R2|]. apply nth_ext with (d := 0) (d' := 0).
    - rewrite Ll. exact (proj1 R2).
    - intros j Hj. rewrite (proj1 R2) in Hj. destruct (lt_at _ l j) as [x Hx]; [lia|]. destruct (lt_at _ c' j) as [y Hy]; [rewrite (proj1 R2); exact Hj|].
      rewrite (nth_error_nth _ _ _ Hx), (nth_error_nth _ _ _ Hy).
      specialize (Cc _ _ (Cl _ _ Hx)). pose proof (at_concat _ n cols _ _ _ _ cols_all Hc' Hy) as Cy.
      replace (t * (n * n) + (i * n + j))%nat with ((t * n + i) * n + j)%nat in Cc by lia.
      unfold at_ in *. congruence.
  Qed.

  Hypothesis positive : forall r row, at_ sheet r row -> nonneg row.

  Lemma numbers_nonneg : forall row l r, at_ sheet r row -> numbers n row l -> nonneg l.
  Proof. intros row l r R [_ N] j x Hx. exact (positive r row R _ _ (N j x Hx)). Qed.

  (** A row after line 262. *)
  Lemma stay_total : forall l i, nonneg l -> (i < length l)%nat ->
    let l' := if Qeq_bool (qsum l) 0 then put l i 1 else l in
    (total l == 0 -> total l' == 1 /\ forall j y, at_ l' j y -> y == if Nat.eqb j i then 1 else 0) /\
    (~ total l == 0 -> l' = l) /\ length l' = length l.
  Proof.
    intros l i N Hi l'. unfold l'. destruct (Qeq_bool (qsum l) 0) eqn:E.
    - apply Qeq_bool_eq in E. rewrite <- total_qsum in E. pose proof (nonneg_zero l N E) as Z. split; [|split; [intro; contradiction|apply put_length]].
      intros _. split; [apply put_total; assumption|]. intros j y Hy. apply put_at in Hy as [[-> ->]|[Ne A]].
      + rewrite Nat.eqb_refl. reflexivity.
      + apply Nat.eqb_neq in Ne. rewrite Ne. rewrite Forall_forall in Z. apply Z. exact (at_in _ _ _ _ A).
    - apply Qeq_bool_neq in E. rewrite <- total_qsum in E. split; [intro; contradiction|]. split; reflexivity.
  Qed.

  Lemma rows_all : forall a, reshape_tpm times n sheet = Ok a -> Forall (fun m => length m = n) (map stay a).
  Proof.
    intros a H. destruct (reshape_at a H) as [_ A]. apply Forall_forall. intros m Hm. apply in_map_iff in Hm as (m0 & <- & Hm).
    unfold stay. rewrite stay_from_length. apply in_at in Hm as [t Hm]. exact (proj1 (proj2 (A t m0 Hm))).
  Qed.

  Theorem tpm_rows : forall a out, reshape_tpm times n sheet = Ok a -> rescale_3d n (map stay a) = Ok out ->
    length out = times /\ forall t m, at_ out t m -> (t < times)%nat /\ length m = n /\ forall i o, at_ m i o ->
      is_pdf o /\ exists row l, at_ sheet (t * n + i) row /\ numbers n row l /\ settles l i o.
  Proof.
    intros a out H R. pose proof (rows_all a H) as F. destruct (reshape_at a H) as [La A].
    unfold rescale_3d in R. destruct (rescale_pdf (1 # 10) (concat (map stay a))) as [rows|] eqn:E; [|discriminate].
    cbn [bind] in R. injection R as <-. rewrite map_length, La.
    split; [apply chunks_length|].
    destruct (rescale_pdf_ok (1 # 10) _ _ ltac:(lra) E) as [Lr B].
    rewrite (concat_length_n _ n _ F), map_length, La in Lr.
    intros t m Hm. destruct (chunks_at _ _ _ _ _ _ Lr Hm) as (Ht & Lm & Cm). split; [exact Ht|]. split; [exact Lm|].
    intros i o Ho. specialize (Cm i o Ho). pose proof (at_lt _ _ _ _ Ho) as Hi. rewrite Lm in Hi.
    destruct (lt_at _ a t) as [m0 Hm0]; [lia|]. destruct (A t m0 Hm0) as (_ & Lm0 & C0).
    destruct (lt_at _ m0 i) as [l Hl]; [lia|]. destruct (C0 i l Hl) as (_ & row & R1 & R2).
    pose proof (numbers_nonneg row l _ R1 R2) as Nl. pose proof (proj1 R2) as Ll.
    destruct (stay_total l i Nl ltac:(lia)) as (S1 & S2 & S3). set (l' := if Qeq_bool (qsum l) 0 then put l i 1 else l) in *.
    assert (Hs : at_ (stay m0) i l') by (apply stay_from_at; exists l; split; [exact Hl|reflexivity]).
    assert (Hst : at_ (map stay a) t (stay m0)) by (unfold at_ in *; rewrite nth_error_map, Hm0; reflexivity).
    destruct (B _ _ (at_concat _ n _ _ _ _ _ F Hst Hs)) as (o' & O1 & O2 & O3 & _).
    rewrite (at_fun _ _ _ _ _ Cm O1) in *. clear o Cm Ho.
    assert (Np : nonneg l').
    { intros j x Hx. destruct (Qeq_dec (total l) 0) as [Z|Z].
      - rewrite (proj2 (S1 Z) j x Hx). destruct (Nat.eqb j i); lra.
      - rewrite (S2 Z) in Hx. exact (Nl j x Hx). }
    assert (Tp : 0 < total l').
    { assert (0 <= total l') by (clear -Np; rewrite total_qsum; apply qsum_nonneg, nonneg_Forall, Np).
      destruct (Qeq_dec (total l) 0) as [Z|Z]; [rewrite (proj1 (S1 Z)); lra|]. rewrite (S2 Z) in *. destruct (Q_dec (total l) 0) as [[|]|]; try lra. }
    destruct O3 as [O3 O4]. split.
    - split; [|exact O2]. intros j y Hy. destruct (lt_at _ l' j) as [x Hx]; [rewrite <- O3; exact (at_lt _ _ _ _ Hy)|].
      specialize (O4 j x y Hx Hy). specialize (Np j x Hx). destruct (Qlt_le_dec y 0); [|assumption]. exfalso. nra.
    - exists row, l. split; [exact R1|]. split; [exact R2|]. split; [lia|]. split.
      + intros Z j y Hy. destruct (lt_at _ l' j) as [x Hx]; [rewrite <- O3; exact (at_lt _ _ _ _ Hy)|].
        specialize (O4 j x y Hx Hy). destruct (S1 Z) as [T1 T2]. rewrite T1, (T2 j x Hx) in O4. lra.
      + intros Z j x y Hx Hy. rewrite (S2 Z) in O4. exact (O4 j x y Hx Hy).
  Qed.

  (** Accepted sheets. *)
  Theorem tpm_accepted : forall a, reshape_tpm times n sheet = Ok a ->
    (exists out, rescale_3d n (map stay a) = Ok out) <->
    forall r row l, at_ sheet r row -> numbers n row l -> total l == 0 \/ near (total l).
  Proof.
    intros a H. pose proof (rows_all a H) as F. destruct (reshape_at a H) as [La A].
    assert (Ls : length sheet = (times * n)%nat) by (apply reshape_ok; rewrite H; discriminate).
    unfold rescale_3d. split.
    - intros [out E] r row l R1 R2. destruct (rescale_pdf (1 # 10) (concat (map stay a))) as [rows|] eqn:Er; [|discriminate].
      destruct (Qeq_dec (total l) 0) as [Z|Z]; [auto|right].
      apply rescale_pdf_ok_inv in Er as (_ & _ & B). pose proof (at_lt _ _ _ _ R1) as Hr. rewrite Ls in Hr.
      pose proof (Nat.mod_upper_bound r n ltac:(lia)) as Hm. pose proof (Nat.div_mod r n ltac:(lia)) as Dm.
      destruct (lt_at _ a (r / n)) as [m0 Hm0]; [rewrite La; apply Nat.div_lt_upper_bound; lia|]. destruct (A _ m0 Hm0) as (_ & Lm0 & C0).
      destruct (lt_at _ m0 (r mod n)) as [l0 Hl0]; [lia|]. destruct (C0 _ l0 Hl0) as (_ & row0 & Q1 & Q2).
      replace (r / n * n + r mod n)%nat with r in Q1 by lia. rewrite (at_fun _ _ _ _ _ Q1 R1) in Q2.
      assert (E0 : l0 = l).
      { apply nth_ext with (d := 0) (d' := 0); [rewrite (proj1 R2); exact (proj1 Q2)|]. intros j Hj.
        destruct (lt_at _ l0 j Hj) as [x Hx]. destruct (lt_at _ l j) as [y Hy]; [rewrite (proj1 R2); rewrite (proj1 Q2) in Hj; exact Hj|].
        rewrite (nth_error_nth _ _ _ Hx), (nth_error_nth _ _ _ Hy). pose proof (proj2 Q2 j x Hx). pose proof (proj2 R2 j y Hy). unfold at_ in *. congruence. }
      subst l0. destruct (stay_total l (r mod n) (numbers_nonneg _ _ _ R1 R2)) as (_ & S2 & _); [rewrite (proj1 R2); lia|].
      assert (Hs : at_ (stay m0) (r mod n) l).
      { apply stay_from_at. exists l. split; [exact Hl0|]. symmetry. exact (S2 Z). }
      assert (Hst : at_ (map stay a) (r / n) (stay m0)) by (unfold at_ in *; rewrite nth_error_map, Hm0; reflexivity).
      specialize (B l (at_in _ _ _ _ (at_concat _ n _ _ _ _ _ F Hst Hs))). rewrite total_qsum. unfold near. split; lra.
    - intro Hr. destruct (rescale_pdf_total (1 # 10) (concat (map stay a))) as [Er|[rows Er]]; [|rewrite Er; cbn; eauto].
      exfalso. apply rescale_pdf_error_iff in Er as (k & row' & K1 & K2); [|lra|lra]. apply at_in in K1.
      apply in_concat_at in K1 as (t & m & i & T1 & T2). unfold at_ in T1. rewrite nth_error_map in T1.
      destruct (nth_error a t) as [m0|] eqn:Em; [|discriminate]. injection T1 as <-. apply stay_from_at in T2 as (l & Hl & ->).
      destruct (A t m0 Em) as (_ & Lm & C0). destruct (C0 i l Hl) as (Hi & row & R1 & R2).
      destruct (stay_total l i (numbers_nonneg _ _ _ R1 R2)) as (S1 & S2 & _); [rewrite (proj1 R2); lia|]. apply K2. rewrite Nat.add_0_l.
      destruct (Qeq_dec (total l) 0) as [Z|Z]; [rewrite (proj1 (S1 Z)); lra|]. rewrite (S2 Z).
      destruct (Hr _ _ _ R1 R2) as [|[? ?]]; [contradiction|]. split; lra.
  Qed.
End Sheet.

(** ** Starting states *)

Lemma seq_nth_error : forall n s i, (i < n)%nat -> nth_error (seq s n) i = Some (s + i)%nat.
Proof.
  induction n as [|n IH]; intros s i H; [lia|]. destruct i as [|i]; cbn; [f_equal; lia|]. rewrite IH by lia. f_equal. lia.
Qed.

Lemma mask_length : forall n, length (start_mask n) = ((n + 1) * (n + 1))%nat.
Proof.
  intro n. unfold start_mask. rewrite flat_map_concat_map. rewrite (concat_length_n _ (n + 1)).
  - rewrite map_length, seq_length. reflexivity.
  - apply Forall_forall. intros c Hc. apply in_map_iff in Hc as (k & <- & _). rewrite map_length, seq_length. reflexivity.
Qed.

Lemma mask_at : forall n i a b, is_state n i a b -> at_ (start_mask n) i (7 * a + b)%nat.
Proof.
  intros n i a b (Ha & Hb & ->). unfold start_mask. rewrite flat_map_concat_map. eapply at_concat.
  - apply Forall_forall. intros c Hc. apply in_map_iff in Hc as (k & <- & _). rewrite map_length, seq_length. reflexivity.
  - unfold at_. rewrite nth_error_map. rewrite seq_nth_error by lia. reflexivity.
  - unfold at_. rewrite nth_error_map. rewrite seq_nth_error by lia. cbn. f_equal. lia.
Qed.
