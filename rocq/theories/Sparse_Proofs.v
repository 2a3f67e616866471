(** * Proofs about sparse transition matrices. *)

From Coq Require Import List ZArith QArith Bool Lia Lqa Arith Sorted ZifyBool.
From Verif Require Import Prelude PreludeFacts SpecBase SpecBaseFacts Sampling_Model Sampling_Spec Sampling_Proofs Sparse_Model Sparse_Spec.
Import ListNotations.

Local Arguments Z.of_nat : simpl never.

(** ** Columns and entries *)

Lemma zip4_maps : forall es, zip4 (map e_time es) (map e_from es) (map e_to es) (map e_val es) = es.
Proof. induction es as [|[t f u v] es IH]; simpl; congruence. Qed.

Lemma entries_with : forall p es, entries (with_entries p es) = Ok es.
Proof. intros p es. unfold entries, with_entries; simpl. rewrite !map_length, !Nat.eqb_refl. simpl. rewrite zip4_maps. reflexivity. Qed.

Lemma entries_parallel : forall p, parallel p -> entries p = Ok (zip4 (t_times p) (t_from p) (t_to p) (t_values p)).
Proof. intros p (H1 & H2 & H3). unfold entries. rewrite H1, H2, H3, !Nat.eqb_refl. reflexivity. Qed.

Lemma entries_ok : forall p es, entries p = Ok es -> parallel p /\ es = zip4 (t_times p) (t_from p) (t_to p) (t_values p).
Proof.
  intros p es H. unfold entries in H. destruct (_ && _) eqn:E in H; [|discriminate]. injection H as <-.
  rewrite !andb_true_iff, !Nat.eqb_eq in E. unfold parallel. tauto.
Qed.

Lemma filter_all : forall A (f : A -> bool) l, (forall x, In x l -> f x = true) -> filter f l = l.
Proof. induction l as [|x l IH]; intro H; simpl; auto. rewrite H by (left; auto). f_equal. apply IH. intros; apply H; right; auto. Qed.

Lemma filter_none : forall A (f : A -> bool) l, (forall x, In x l -> f x = false) -> filter f l = [].
Proof. induction l as [|x l IH]; intro H; simpl; auto. rewrite H by (left; auto). apply IH. intros; apply H; right; auto. Qed.

Lemma filter_comp : forall A (f g : A -> bool) l, filter f (filter g l) = filter (fun x => g x && f x) l.
Proof.
  induction l as [|x l IH]; simpl; auto. destruct (g x); simpl; auto. destruct (f x); congruence.
Qed.

Lemma filter_ext_in' : forall A (f g : A -> bool) l, (forall x, In x l -> f x = g x) -> filter f l = filter g l.
Proof.
  induction l as [|x l IH]; intro H; simpl; auto. rewrite (H x) by (left; auto). rewrite IH by (intros; apply H; right; auto). reflexivity.
Qed.

(** ** Dense matrices *)

Definition mget (m : list (list Q)) (i j : nat) : Q := nth j (nth i m []) 0.

Lemma mget_entry : forall n m i j v, square n m -> entry_at m i j v -> mget m i j = v /\ (i < n)%nat /\ (j < n)%nat.
Proof.
  intros n m i j v [Hl Hr] (row & Hi & Hj). unfold mget.
  rewrite (nth_error_nth _ _ _ Hi), (nth_error_nth _ _ _ Hj). split; auto.
  pose proof (at_lt _ _ _ _ Hi). pose proof (at_lt _ _ _ _ Hj). rewrite (Hr _ _ Hi) in *. lia.
Qed.

Lemma square_entry : forall n m i j, square n m -> (i < n)%nat -> (j < n)%nat -> entry_at m i j (mget m i j).
Proof.
  intros n m i j [Hl Hr] Hi Hj. destruct (lt_at _ m i ltac:(lia)) as [row Hrow].
  exists row. split; auto. unfold mget. rewrite (nth_error_nth _ _ _ Hrow). apply nth_error_nth'. rewrite (Hr _ _ Hrow). auto.
Qed.

Lemma set_nth_length : forall A (l : list A) i v, length (set_nth l i v) = length l.
Proof.
  intros A l i v. unfold set_nth. rewrite app_length, firstn_length.
  pose proof (skipn_length i l) as H. destruct (skipn i l); simpl in *; lia.
Qed.

Lemma set_nth_nth : forall A (l : list A) i v j d, (i < length l)%nat ->
  nth j (set_nth l i v) d = if Nat.eqb j i then v else nth j l d.
Proof.
  intros A l. induction l as [|x l IH]; intros i v j d Hi; simpl in Hi; [lia|].
  destruct i as [|i], j as [|j]; simpl; auto.
  change (nth j (set_nth l i v) d = if Nat.eqb j i then v else nth j l d). apply IH. lia.
Qed.

Lemma square_set : forall n m i j v row, square n m -> at_ m i row -> (i < n)%nat -> (j < n)%nat ->
  square n (set_nth m i (set_nth row j v)).
Proof.
  intros n m i j v row [Hl Hr] Hrow Hi Hj. split; [rewrite set_nth_length; auto|].
  intros k r Hk. assert (Hk' : (k < n)%nat) by (rewrite <- Hl, <- (set_nth_length _ m i (set_nth row j v)); eapply at_lt; eauto).
  pose proof (nth_error_nth _ _ [] Hk) as E. rewrite set_nth_nth in E by lia. destruct (Nat.eqb_spec k i).
  - subst r. rewrite set_nth_length. eapply Hr; eauto.
  - subst r. destruct (lt_at _ m k ltac:(lia)) as [r Hr']. rewrite (nth_error_nth _ _ _ Hr'). eapply Hr; eauto.
Qed.

(** The value the last matching entry gives to cell (i, j). *)
Definition overlay (es : list entry) (i j : Z) (d : Q) : Q :=
  fold_left (fun acc e => if ((e_from e =? i) && (e_to e =? j))%Z then e_val e else acc) es d.

Definition in_range (n : nat) (e : entry) : Prop :=
  (0 <= e_from e < Z.of_nat n)%Z /\ (0 <= e_to e < Z.of_nat n)%Z.

Lemma mat_assign_spec : forall n es m, square n m -> Forall (in_range n) es ->
  exists m', mat_assign m es = Ok m' /\ square n m' /\
  forall i j, (i < n)%nat -> (j < n)%nat -> mget m' i j = overlay es (Z.of_nat i) (Z.of_nat j) (mget m i j).
Proof.
  intro n. induction es as [|e es IH]; intros m Hm He.
  - exists m. simpl. auto.
  - inversion He as [|? ? [Hf Ht] He']; subst. cbn [mat_assign]. unfold mat_set.
    destruct Hm as [Hl Hr].
    destruct (lt_at _ m (Z.to_nat (e_from e)) ltac:(lia)) as [row Hrow]. unfold at_ in Hrow. rewrite Hrow.
    assert (Hlr : length row = n) by (eapply Hr; eauto).
    destruct (Nat.ltb_spec (Z.to_nat (e_to e)) (length row)) as [Hlt|]; [|lia]. simpl bind.
    set (m1 := set_nth m _ _).
    assert (Hm1 : square n m1) by (apply square_set; [split; auto|auto|lia|lia]).
    destruct (IH m1 Hm1 He') as (m' & E & Hs & Hg). exists m'. repeat split; auto; try apply Hs.
    intros i j Hi Hj. rewrite (Hg i j Hi Hj). unfold overlay at 2; simpl fold_left. fold (overlay es (Z.of_nat i) (Z.of_nat j)).
    change (fold_left _ es ?d) with (overlay es (Z.of_nat i) (Z.of_nat j) d). f_equal.
    unfold m1, mget. rewrite set_nth_nth by lia.
    destruct (Nat.eqb_spec i (Z.to_nat (e_from e))) as [Ei|Ei].
    + rewrite set_nth_nth by lia.
      destruct (Z.eqb_spec (e_from e) (Z.of_nat i)); [|lia]. simpl.
      destruct (Nat.eqb_spec j (Z.to_nat (e_to e))), (Z.eqb_spec (e_to e) (Z.of_nat j)); try lia; auto.
      rewrite Ei, (nth_error_nth _ _ _ Hrow). reflexivity.
    + destruct (Z.eqb_spec (e_from e) (Z.of_nat i)); [lia|]. reflexivity.
Qed.

Lemma overlay_app : forall a b i j d, overlay (a ++ b) i j d = overlay b i j (overlay a i j d).
Proof. intros. unfold overlay. apply fold_left_app. Qed.

Lemma overlay_row : forall t a row b i j d, overlay (nonzero_row t a b row) i j d =
  if (a =? i)%Z && ((b <=? j)%Z && (j <? b + Z.of_nat (length row))%Z)
  then (if Qeq_bool (nth (Z.to_nat (j - b)) row 0) 0 then d else nth (Z.to_nat (j - b)) row 0)
  else d.
Proof.
  intros t a. induction row as [|v row IH]; intros b i j d.
  - cbn [nonzero_row length]. destruct ((a =? i)%Z && ((b <=? j)%Z && (j <? b + Z.of_nat 0)%Z)) eqn:E; [lia|reflexivity].
  - cbn [nonzero_row length].
    assert (Hhd : forall d0, overlay [mkE t a b v] i j d0 = if ((a =? i) && (b =? j))%Z then v else d0) by reflexivity.
    destruct (Z.eqb_spec a i) as [Ea|Ea].
    2:{ destruct (Qeq_bool v 0).
        - rewrite IH. destruct (Z.eqb_spec a i); [lia|]. reflexivity.
        - change (mkE t a b v :: nonzero_row t a (b + 1) row) with ([mkE t a b v] ++ nonzero_row t a (b + 1) row).
          rewrite overlay_app, IH, Hhd. destruct (Z.eqb_spec a i); [lia|]. reflexivity. }
    simpl andb in *.
    destruct (Z.eqb_spec b j) as [Eb|Eb].
    + subst j. replace (b - b)%Z with 0%Z by lia. simpl nth.
      replace ((b <=? b)%Z) with true by lia. replace ((b <? b + Z.of_nat (S (length row)))%Z) with true by lia. simpl andb. cbv iota.
      destruct (Qeq_bool v 0).
      * rewrite IH. destruct (Z.eqb_spec a i); [|lia]. replace ((b + 1 <=? b)%Z) with false by lia. reflexivity.
      * change (mkE t a b v :: nonzero_row t a (b + 1) row) with ([mkE t a b v] ++ nonzero_row t a (b + 1) row).
        rewrite overlay_app, IH, Hhd. destruct (Z.eqb_spec a i); [|lia]. replace ((b + 1 <=? b)%Z) with false by lia. reflexivity.
    + assert (Hrest : forall d0, overlay (nonzero_row t a (b + 1) row) i j d0 =
          if (b <=? j)%Z && (j <? b + Z.of_nat (S (length row)))%Z
          then (if Qeq_bool (nth (Z.to_nat (j - b)) (v :: row) 0) 0 then d0 else nth (Z.to_nat (j - b)) (v :: row) 0) else d0).
      { intro d0. rewrite IH. destruct (Z.eqb_spec a i); [|lia]. simpl andb.
        destruct (Z.leb_spec (b + 1) j), (Z.leb_spec b j); try lia; auto. simpl andb.
        replace (b + 1 + Z.of_nat (length row))%Z with (b + Z.of_nat (S (length row)))%Z by lia.
        replace (Z.to_nat (j - b)) with (S (Z.to_nat (j - (b + 1)))) by lia. reflexivity. }
      destruct (Qeq_bool v 0).
      * apply Hrest.
      * change (mkE t a b v :: nonzero_row t a (b + 1) row) with ([mkE t a b v] ++ nonzero_row t a (b + 1) row).
        rewrite overlay_app, Hhd. destruct (Z.eqb_spec b j); [lia|]. apply Hrest.
Qed.

Lemma overlay_mat : forall n t m a i j d, (forall k row, at_ m k row -> length row = n) ->
  (0 <= j < Z.of_nat n)%Z ->
  overlay (nonzero_mat t a m) i j d =
  if (a <=? i)%Z && (i <? a + Z.of_nat (length m))%Z
  then (let v := mget m (Z.to_nat (i - a)) (Z.to_nat j) in if Qeq_bool v 0 then d else v) else d.
Proof.
  intros n t. induction m as [|row m IH]; intros a i j d Hm Hj.
  - cbn [nonzero_mat length]. destruct ((a <=? i)%Z && (i <? a + Z.of_nat 0)%Z) eqn:E; [lia|reflexivity].
  - cbn [nonzero_mat length]. rewrite overlay_app, IH; auto; [|intros k r Hk; apply (Hm (S k)); auto].
    rewrite overlay_row. rewrite (Hm 0%nat row eq_refl). replace ((0 <=? j)%Z) with true by lia.
    replace ((j <? 0 + Z.of_nat n)%Z) with true by lia. rewrite Z.sub_0_r, andb_true_r. simpl andb.
    destruct (Z.eqb_spec a i) as [Ea|Ea].
    + subst i. replace ((a + 1 <=? a)%Z) with false by lia. simpl andb.
      replace ((a <=? a)%Z) with true by lia. replace ((a <? a + Z.of_nat (S (length m)))%Z) with true by lia. simpl andb. cbv iota.
      unfold mget. rewrite Z.sub_diag. reflexivity.
    + destruct (Z.leb_spec (a + 1) i), (Z.leb_spec a i); try lia; auto. simpl andb.
      replace (a + 1 + Z.of_nat (length m))%Z with (a + Z.of_nat (S (length m)))%Z by lia.
      unfold mget. replace (Z.to_nat (i - a)) with (S (Z.to_nat (i - (a + 1)))) by lia. reflexivity.
Qed.

Lemma nonzero_row_props : forall t a row b e, In e (nonzero_row t a b row) ->
  e_time e = t /\ e_from e = a /\ (b <= e_to e < b + Z.of_nat (length row))%Z.
Proof.
  intros t a. induction row as [|v row IH]; intros b e H; simpl in H; [tauto|].
  destruct (Qeq_bool v 0).
  - apply IH in H. simpl length. lia.
  - destruct H as [<-|H]; [simpl; lia|]. apply IH in H. simpl length. lia.
Qed.

Lemma nonzero_mat_props : forall n t m a e, (forall k row, at_ m k row -> length row = n) -> In e (nonzero_mat t a m) ->
  e_time e = t /\ (a <= e_from e < a + Z.of_nat (length m))%Z /\ (0 <= e_to e < Z.of_nat n)%Z.
Proof.
  intros n t. induction m as [|row m IH]; intros a e Hm H; simpl in H; [tauto|].
  apply in_app_or in H as [H|H].
  - apply nonzero_row_props in H. rewrite (Hm 0%nat row eq_refl) in H. simpl length. lia.
  - apply IH in H; [|intros k r Hk; apply (Hm (S k)); auto]. simpl length. lia.
Qed.

Lemma repeat_square : forall n, square n (repeat (repeat 0 n) n).
Proof.
  intro n. split; [apply repeat_length|]. intros i row H. apply at_in, repeat_spec in H. subst. apply repeat_length.
Qed.

Lemma nth_repeat_0 : forall n j, nth j (repeat 0 n) 0 = 0.
Proof. induction n; intros [|j]; simpl; auto. Qed.

Lemma repeat_mget : forall n i j, mget (repeat (repeat 0 n) n) i j = 0.
Proof.
  intros n i j. unfold mget. destruct (le_lt_dec n i) as [H|H].
  - rewrite (nth_overflow (repeat (repeat 0 n) n)) by (rewrite repeat_length; auto). destruct j; reflexivity.
  - assert (In (nth i (repeat (repeat 0 n) n) []) (repeat (repeat 0 n) n)) as Hin by (apply nth_In; rewrite repeat_length; auto).
    apply repeat_spec in Hin. rewrite Hin. apply nth_repeat_0.
Qed.

Lemma shape_ok : forall n (m : list (list Q)), ((length m =? n)%nat && forallb (fun row => length row =? n)%nat m = true) <-> square n m.
Proof.
  intros n m. rewrite andb_true_iff, Nat.eqb_eq, forallb_forall. unfold square. split; intros [H1 H2]; split; auto.
  - intros i row Hr. apply Nat.eqb_eq, H2. eapply at_in; eauto.
  - intros row Hr. apply in_at in Hr as [i Hi]. apply Nat.eqb_eq. eauto.
Qed.

Lemma same_matrix_mget : forall n m m', square n m -> square n m' ->
  (forall i j, (i < n)%nat -> (j < n)%nat -> mget m i j == mget m' i j) -> same_matrix m m'.
Proof.
  intros n m m' [H1 H2] [H3 H4] H. unfold same_matrix.
  assert (G : forall a b : list (list Q), length a = length b ->
     (forall i x y, at_ a i x -> at_ b i y -> eqQ_list x y) -> Forall2 eqQ_list a b).
  { clear. induction a as [|x a IH]; intros [|y b] Hl Hab; simpl in Hl; try discriminate; constructor.
    - apply (Hab 0%nat); reflexivity.
    - apply IH; [lia|]. intros i u v Hu Hv. apply (Hab (S i)); auto. }
  apply G; [congruence|]. intros i x y Hx Hy. apply eqQ_list_nth. rewrite (H2 _ _ Hx), (H4 _ _ Hy). split; auto.
  intros j u v Hu Hv. pose proof (at_lt _ _ _ _ Hx). pose proof (at_lt _ _ _ _ Hu). rewrite (H2 _ _ Hx) in *.
  specialize (H i j ltac:(lia) ltac:(lia)). unfold mget in H.
  rewrite (nth_error_nth _ _ _ Hx), (nth_error_nth _ _ _ Hy), (nth_error_nth _ _ _ Hu), (nth_error_nth _ _ _ Hv) in H. exact H.
Qed.

(** ** C20 *)

Theorem set_get : forall p p' t m, sp_set p (KInt t) m = Ok p' ->
  forall k, (k mod n_times p = t mod n_times p)%Z ->
  exists m', sp_get p' (KInt k) = Ok m' /\ same_matrix m' m.
Proof.
  intros p p' t m H k Hk. unfold sp_set in H. unfold check_time in H.
  destruct (Z.eqb_spec (n_times p) 0) as [|Hn]; simpl in H; [discriminate|].
  destruct (_ && _) eqn:Hs in H; [|discriminate]. apply shape_ok in Hs.
  destruct (entries p) as [es|] eqn:Ee; simpl in H; [|discriminate]. injection H as <-.
  unfold sp_get. unfold check_time. simpl n_times. destruct (Z.eqb_spec (n_times p) 0) as [|_]; [lia|]. simpl bind at 1.
  rewrite entries_with. simpl bind. rewrite Hk, filter_app, filter_comp.
  rewrite (filter_none _ _ es) by (intros x _; destruct (e_time x =? t mod n_times p)%Z; reflexivity). simpl app.
  assert (Hrow : forall k row, at_ m k row -> length row = Z.to_nat (n_states p)) by apply Hs.
  rewrite filter_all.
  2:{ intros e He. apply (nonzero_mat_props _ _ _ _ _ Hrow) in He as [He _]. rewrite He. apply Z.eqb_refl. }
  destruct (mat_assign_spec (Z.to_nat (n_states p)) (nonzero_mat (t mod n_times p) 0 m) _ (repeat_square _)) as (m' & E & Hs' & Hg).
  { apply Forall_forall. intros e He. apply (nonzero_mat_props _ _ _ _ _ Hrow) in He as (_ & H1 & H2).
    destruct Hs as [Hs _]. rewrite Hs in H1. split; lia. }
  exists m'. split; [exact E|]. apply (same_matrix_mget (Z.to_nat (n_states p))); auto.
  intros i j Hi Hj. rewrite (Hg i j Hi Hj), repeat_mget.
  rewrite (overlay_mat (Z.to_nat (n_states p))); auto; [|lia].
  destruct Hs as [Hs _].
  replace ((0 <=? Z.of_nat i)%Z) with true by lia. replace ((Z.of_nat i <? 0 + Z.of_nat (length m))%Z) with true by lia.
  rewrite Z.sub_0_r, !Nat2Z.id. simpl. destruct (Qeq_bool (mget m i j) 0) eqn:E0; [|reflexivity].
  apply Qeq_bool_iff in E0. symmetry; exact E0.
Qed.

Theorem set_get_other : forall p p' t m, sp_set p (KInt t) m = Ok p' ->
  n_states p' = n_states p /\ n_times p' = n_times p /\ dead_state p' = dead_state p /\
  forall k, (k mod n_times p <> t mod n_times p)%Z -> sp_get p' (KInt k) = sp_get p (KInt k).
Proof.
  intros p p' t m H. unfold sp_set in H. unfold check_time in H.
  destruct (Z.eqb_spec (n_times p) 0) as [|Hn]; simpl in H; [discriminate|].
  destruct (_ && _) eqn:Hs in H; [|discriminate]. apply shape_ok in Hs.
  destruct (entries p) as [es|] eqn:Ee; simpl in H; [|discriminate]. injection H as <-.
  repeat split; auto. intros k Hk.
  unfold sp_get. unfold check_time. simpl n_times. destruct (Z.eqb_spec (n_times p) 0) as [|_]; [lia|]. simpl bind at 1. simpl bind at 2.
  rewrite entries_with, Ee. simpl bind. simpl n_states. f_equal.
  rewrite filter_app, filter_comp.
  rewrite (filter_none _ _ (nonzero_mat _ _ _)).
  - rewrite app_nil_r. apply filter_ext_in'. intros x _.
    destruct (Z.eqb_spec (e_time x) (t mod n_times p)), (Z.eqb_spec (e_time x) (k mod n_times p)); simpl; auto. lia.
  - intros e He. apply (nonzero_mat_props (Z.to_nat (n_states p))) in He as [He _]; [|apply Hs]. lia.
Qed.

Theorem set_rejects : forall p t m, n_times p <> 0%Z -> ~ square (Z.to_nat (n_states p)) m ->
  sp_set p (KInt t) m = Err ValueError.
Proof.
  intros p t m Hn Hs. unfold sp_set, check_time. destruct (Z.eqb_spec (n_times p) 0); [lia|]. simpl.
  destruct (_ && _) eqn:E; [|reflexivity]. apply shape_ok in E. tauto.
Qed.

Theorem set_succeeds : forall p t m, n_times p <> 0%Z -> parallel p -> square (Z.to_nat (n_states p)) m ->
  exists p', sp_set p (KInt t) m = Ok p'.
Proof.
  intros p t m Hn Hp Hs. unfold sp_set, check_time. destruct (Z.eqb_spec (n_times p) 0); [lia|]. simpl.
  apply shape_ok in Hs. rewrite Hs, (entries_parallel p Hp). simpl. eauto.
Qed.

(** ** Sampling *)

Lemma uinsert_in : forall x l y, In y (uinsert x l) <-> y = x \/ In y l.
Proof.
  induction l as [|z l IH]; intro y; simpl; [intuition|].
  destruct (Z.ltb_spec x z); [simpl; intuition|]. destruct (Z.eqb_spec x z); [subst; simpl; intuition|].
  simpl. rewrite IH. intuition.
Qed.

Lemma unique_in : forall l y, In y (unique l) <-> In y l.
Proof. induction l as [|x l IH]; intro y; simpl; [tauto|]. rewrite uinsert_in, IH. intuition. Qed.

Lemma uinsert_sorted : forall x l, StronglySorted Z.lt l -> StronglySorted Z.lt (uinsert x l).
Proof.
  induction l as [|z l IH]; intro H; simpl.
  - constructor; constructor.
  - inversion H as [|? ? Hs Hf]; subst. destruct (Z.ltb_spec x z).
    + constructor; auto. constructor; auto. rewrite Forall_forall in *. intros y Hy. specialize (Hf y Hy). lia.
    + destruct (Z.eqb_spec x z); auto. constructor; auto.
      rewrite Forall_forall in *. intros y Hy. apply uinsert_in in Hy as [->|Hy]; [lia|auto].
Qed.

Lemma unique_sorted : forall l, StronglySorted Z.lt (unique l).
Proof. induction l; simpl; [constructor|]. apply uinsert_sorted; auto. Qed.

Lemma index_of_at : forall x l, In x l -> at_ l (index_of x l) x.
Proof.
  induction l as [|y l IH]; intro H; [destruct H|]. simpl. destruct (Z.eqb_spec x y) as [->|Hne]; [reflexivity|].
  destruct H as [H|H]; [congruence|]. apply IH; auto.
Qed.

Lemma isin_in : forall x l, isin x l = true <-> In x l.
Proof.
  intros x l. unfold isin. rewrite existsb_exists. split.
  - intros (y & Hy & E). apply Z.eqb_eq in E. congruence.
  - intro H. exists x. split; auto. apply Z.eqb_refl.
Qed.

Lemma isin_false : forall x l, isin x l = false <-> ~ In x l.
Proof. intros x l. rewrite <- isin_in. destruct (isin x l); split; intuition congruence. Qed.

(** Selecting several origins from entries sorted by origin. *)
Lemma filter_sorted_split : forall E u us, StronglySorted Z.le (map e_from E) -> (forall x, In x us -> (u < x)%Z) ->
  filter (fun e => isin (e_from e) (u :: us)) E =
  filter (fun e => (e_from e =? u)%Z) E ++ filter (fun e => isin (e_from e) us) E.
Proof.
  induction E as [|e E IH]; intros u us Hs Hu; auto. inversion Hs as [|? ? Hs' Hf]; subst.
  rewrite Forall_forall in Hf. cbn [filter].
  change (isin (e_from e) (u :: us)) with ((e_from e =? u)%Z || isin (e_from e) us).
  destruct (Z.eqb_spec (e_from e) u) as [Eu|Eu].
  - cbn [orb app]. destruct (isin (e_from e) us) eqn:Ei.
    + apply isin_in, Hu in Ei. lia.
    + rewrite (IH u us) by auto. reflexivity.
  - cbn [orb]. destruct (isin (e_from e) us) eqn:Ei; [|apply IH; auto].
    rewrite (IH u us) by auto. rewrite (filter_none _ (fun x => (e_from x =? u)%Z)); [reflexivity|].
    intros x Hx. apply isin_in, Hu in Ei. specialize (Hf (e_from x) (in_map e_from _ _ Hx)). apply Z.eqb_neq. lia.
Qed.

Lemma filter_sorted_concat : forall E us, StronglySorted Z.le (map e_from E) -> StronglySorted Z.lt us ->
  filter (fun e => isin (e_from e) us) E = concat (map (fun u => filter (fun e => (e_from e =? u)%Z) E) us).
Proof.
  intros E us HE. induction us as [|u us IH]; intro Hu.
  - apply filter_none. reflexivity.
  - inversion Hu as [|? ? Hs Hf]; subst. rewrite Forall_forall in Hf. rewrite filter_sorted_split by auto.
    simpl. rewrite IH by auto. reflexivity.
Qed.

(** searchsorted in a concatenation of rows of total one. *)
Lemma ss_acc : forall l a b x y, a == b -> x == y -> searchsorted (cumsum_from a l) x = searchsorted (cumsum_from b l) y.
Proof.
  induction l as [|v l IH]; intros a b x y Ha Hx; simpl; auto.
  assert (E : Qle_bool x (a + v) = Qle_bool y (b + v)).
  { destruct (Qle_bool x (a + v)) eqn:E1, (Qle_bool y (b + v)) eqn:E2; auto.
    - apply Qleb_le in E1. apply Qleb_gt in E2. lra.
    - apply Qleb_gt in E1. apply Qleb_le in E2. lra. }
  rewrite E. destruct (Qle_bool y (b + v)); auto. f_equal. apply IH; auto. rewrite Ha. reflexivity.
Qed.

Lemma ss_app_left : forall row rest a x, row <> [] -> x <= a + qsum row ->
  searchsorted (cumsum_from a (row ++ rest)) x = searchsorted (cumsum_from a row) x.
Proof.
  induction row as [|v row IH]; intros rest a x Hne Hx; [congruence|]. simpl in *.
  destruct (Qle_bool x (a + v)) eqn:E; auto. f_equal.
  destruct row as [|w row].
  - simpl in *. apply Qleb_gt in E. lra.
  - apply IH; [discriminate|]. lra.
Qed.

Lemma ss_app_right : forall row rest a x, Forall (fun v => 0 <= v) row -> a + qsum row < x ->
  searchsorted (cumsum_from a (row ++ rest)) x = (length row + searchsorted (cumsum_from (a + qsum row) rest) x)%nat.
Proof.
  induction row as [|v row IH]; intros rest a x Hn Hx.
  - simpl. apply ss_acc; [ring|reflexivity].
  - inversion Hn as [|? ? Hv Hn']; subst. pose proof (qsum_nonneg _ Hn') as H0. simpl in *.
    destruct (Qle_bool x (a + v)) eqn:E.
    + apply Qleb_le in E. lra.
    + f_equal. rewrite IH; auto; [|lra]. f_equal. apply ss_acc; [ring|reflexivity].
Qed.

Lemma ss_concat : forall rows a j row r x, Forall is_pdf rows -> at_ rows j row ->
  0 < r -> r <= 1 -> x == a + inject_Z (Z.of_nat j) + r ->
  searchsorted (cumsum_from a (concat rows)) x = (length (concat (firstn j rows)) + searchsorted (cumsum row) r)%nat.
Proof.
  induction rows as [|row0 rows IH]; intros a j row r x Hp Hj H0 H1 Hx; [destruct j; discriminate|].
  inversion Hp as [|? ? Hp0 Hp']; subst. destruct Hp0 as [Hn Ht]. apply nonneg_Forall in Hn.
  assert (Hq : qsum row0 == 1) by (rewrite <- (total_qsum row0); exact Ht).
  destruct j as [|j]; unfold at_ in Hj; simpl in Hj.
  - injection Hj as ->. simpl concat. simpl length. simpl Nat.add.
    change (inject_Z (Z.of_nat 0)) with 0 in Hx.
    rewrite ss_app_left.
    + unfold cumsum. clear - Hx. assert (Hx' : x - a == r) by lra. clear Hx.
      assert (G : forall l b, searchsorted (cumsum_from (a + b) l) x = searchsorted (cumsum_from b l) r).
      { induction l as [|v l IH]; intro b; simpl; auto.
        assert (E : Qle_bool x (a + b + v) = Qle_bool r (b + v)).
        { destruct (Qle_bool x (a + b + v)) eqn:E1, (Qle_bool r (b + v)) eqn:E2; auto.
          - apply Qleb_le in E1. apply Qleb_gt in E2. lra.
          - apply Qleb_gt in E1. apply Qleb_le in E2. lra. }
        rewrite E. destruct (Qle_bool r (b + v)); auto. f_equal.
        rewrite <- IH. apply ss_acc; [ring|reflexivity]. }
      rewrite <- G. apply ss_acc; [ring|reflexivity].
    + intro Hnil. rewrite Hnil in Hq. simpl in Hq. lra.
    + lra.
  - simpl concat. assert (Hz : inject_Z (Z.of_nat (S j)) == inject_Z (Z.of_nat j) + 1).
    { rewrite Nat2Z.inj_succ. unfold Z.succ. rewrite inject_Z_plus. reflexivity. }
    assert (Hj0 : 0 <= inject_Z (Z.of_nat j)) by (change 0 with (inject_Z 0); rewrite <- Zle_Qle; lia).
    rewrite ss_app_right; auto; [|lra]. simpl firstn. simpl concat. rewrite app_length, <- Nat.add_assoc. f_equal.
    apply IH; auto. lra.
Qed.

Lemma ss_covers : forall row r, nonneg row -> 0 < r -> r <= total row ->
  (searchsorted (cumsum row) r < length row)%nat /\ covers row r (searchsorted (cumsum row) r).
Proof.
  intros row r Hn H0 H1. remember (searchsorted (cumsum row) r) as k eqn:Ek. symmetry in Ek.
  pose proof (searchsorted_spec _ _ _ Ek) as [Hlo Hhi].
  assert (Hk : (k < length row)%nat).
  { pose proof (searchsorted_le (cumsum row) r) as Hle. rewrite Ek, cumsum_length in Hle.
    destruct (Nat.eq_dec k (length row)) as [Eq|]; [|lia]. exfalso.
    destruct row as [|v row]; [unfold total in H1; simpl in H1; lra|].
    destruct (cumsum_at_ex (v :: row) (length row) ltac:(simpl; lia)) as (c & Hc & Ec).
    assert (Hc' : c < r) by (apply (Hlo (length row)); auto; rewrite Eq; simpl; lia).
    change (S (length row)) with (length (v :: row)) in Ec. rewrite mass_before_all in Ec. lra. }
  split; auto. split.
  - destruct k as [|k]; [unfold mass_before; simpl; unfold total; simpl; lra|].
    destruct (cumsum_at_ex row k ltac:(lia)) as (c & Hc & Ec). specialize (Hlo k c ltac:(lia) Hc). lra.
  - destruct (cumsum_at_ex row k Hk) as (c & Hc & Ec). specialize (Hhi c Hc). lra.
Qed.

Lemma covers_unique : forall row r k k', nonneg row -> covers row r k -> covers row r k' -> k = k'.
Proof.
  intros row r k k' Hn [H1 H2] [H3 H4]. apply nonneg_Forall in Hn.
  assert (M : forall a b, (a <= b)%nat -> mass_before row a <= mass_before row b).
  { intros a b Hab. unfold mass_before. rewrite !total_qsum. apply qsum_firstn_mono; auto. }
  destruct (Nat.lt_trichotomy k k') as [Hlt|[->|Hlt]]; auto; exfalso.
  - specialize (M (S k) k' Hlt). lra.
  - specialize (M (S k') k Hlt). lra.
Qed.

(** The entries of one origin and time. *)
Definition ent (p : tpm) (t s : Z) : list entry :=
  filter (fun e => ((e_time e =? t) && (e_from e =? s))%Z) (zip4 (t_times p) (t_from p) (t_to p) (t_values p)).

Lemma row_of_ent : forall p t s, row_of p t s = map (fun e => (e_to e, e_val e)) (ent p t s).
Proof. reflexivity. Qed.

Definition selected (p : tpm) (t : Z) (states : list Z) : list entry :=
  filter (fun e => (e_time e =? t)%Z && isin (e_from e) (unique states)) (zip4 (t_times p) (t_from p) (t_to p) (t_values p)).

Lemma selected_live : forall p t states s, In s states ->
  (In s (map e_from (selected p t states)) <-> row_of p t s <> []).
Proof.
  intros p t states s Hs. rewrite in_map_iff. split.
  - intros (e & He & Hin). unfold selected in Hin. apply filter_In in Hin as [Hin Hb].
    apply andb_true_iff in Hb as [Ht _].
    assert (Hx : In (e_to e, e_val e) (row_of p t s)).
    { unfold row_of. apply in_map_iff. exists e. split; auto. apply filter_In. split; auto.
      rewrite Ht, He, Z.eqb_refl. reflexivity. }
    intro Hnil. rewrite Hnil in Hx. destruct Hx.
  - intro Hne. unfold row_of in Hne.
    destruct (filter (fun e => ((e_time e =? t) && (e_from e =? s))%Z) (zip4 (t_times p) (t_from p) (t_to p) (t_values p))) as [|e l] eqn:E; [simpl in Hne; tauto|].
    assert (Hin : In e (e :: l)) by (left; auto). rewrite <- E in Hin. apply filter_In in Hin as [Hin Hb].
    apply andb_true_iff in Hb as [Ht Hf]. apply Z.eqb_eq in Hf. exists e. split; auto.
    unfold selected. apply filter_In. split; auto. rewrite Ht. simpl. apply isin_in, unique_in. congruence.
Qed.

Lemma selected_concat : forall p t states, ordered_by_origin p t ->
  selected p t states = concat (map (ent p t) (unique states)).
Proof.
  intros p t states Ho. unfold selected.
  rewrite <- (filter_comp _ (fun e => isin (e_from e) (unique states)) (fun e => (e_time e =? t)%Z)).
  rewrite filter_sorted_concat.
  - f_equal. apply map_ext. intro u. unfold ent. apply filter_comp.
  - apply Sorted_StronglySorted; [exact Z.le_trans|]. exact Ho.
  - apply unique_sorted.
Qed.

Lemma map_concat : forall A B (f : A -> B) l, map f (concat l) = concat (map (map f) l).
Proof. induction l as [|x l IH]; simpl; auto. rewrite map_app, IH. reflexivity. Qed.

Lemma concat_offset : forall A (l : list (list A)) j x k y, at_ l j x -> at_ x k y ->
  at_ (concat l) (length (concat (firstn j l)) + k) y.
Proof.
  unfold at_. induction l as [|v l IH]; intros j x k y Hj Hk; [destruct j; discriminate|].
  destruct j as [|j]; simpl in *.
  - injection Hj as ->. rewrite nth_error_app1; auto. apply nth_error_Some; congruence.
  - rewrite app_length, <- Nat.add_assoc, nth_error_app2 by lia. rewrite Nat.add_comm, Nat.add_sub. eapply IH; eauto.
Qed.

Lemma concat_map_length : forall A B (f : A -> B) (l : list (list A)), length (concat (map (map f) l)) = length (concat l).
Proof. intros. rewrite <- map_concat, map_length. reflexivity. Qed.

(** The sampling part, when every state is live. *)
Lemma sample_ok : forall p t states draws, ordered_by_origin p t ->
  (forall s, In s states -> stochastic_row p t s) ->
  length draws = length states -> (forall i r, at_ draws i r -> 0 < r /\ r <= 1) ->
  exists out,
    mapM (fun sr => match nth_error (map e_to (selected p t states))
                       (searchsorted (cumsum (map e_val (selected p t states)))
                          (snd sr + inject_Z (Z.of_nat (index_of (fst sr) (unique states))))) with
                    | Some j => Ok j | None => Err IndexError end) (combine states draws) = Ok out /\
    length out = length states /\
    forall i s r, at_ states i s -> at_ draws i r ->
      exists k j, at_ out i j /\ at_ (map fst (row_of p t s)) k j /\ covers (map snd (row_of p t s)) r k.
Proof.
  intros p t states draws Ho Hst Hl Hd.
  assert (One : forall s r, In s states -> 0 < r -> r <= 1 -> exists k j,
     nth_error (map e_to (selected p t states))
       (searchsorted (cumsum (map e_val (selected p t states))) (r + inject_Z (Z.of_nat (index_of s (unique states))))) = Some j /\
     at_ (map fst (row_of p t s)) k j /\ covers (map snd (row_of p t s)) r k).
  { intros s r Hs H0 H1. rewrite selected_concat by auto. rewrite !map_concat, !map_map.
    pose proof (index_of_at s (unique states) (proj2 (unique_in states s) Hs)) as Hat.
    set (rows := map (fun x => map e_val (ent p t x)) (unique states)).
    assert (Hrow : at_ rows (index_of s (unique states)) (map e_val (ent p t s))).
    { unfold rows, at_. rewrite nth_error_map. unfold at_ in Hat. rewrite Hat. reflexivity. }
    assert (Hv : map snd (row_of p t s) = map e_val (ent p t s)).
    { rewrite row_of_ent, map_map. reflexivity. }
    assert (Hf : map fst (row_of p t s) = map e_to (ent p t s)).
    { rewrite row_of_ent, map_map. reflexivity. }
    rewrite Hv, Hf.
    pose proof (Hst s Hs) as [Hn Ht]. rewrite Hv in Hn, Ht.
    unfold cumsum at 1. rewrite (ss_concat rows 0 (index_of s (unique states)) (map e_val (ent p t s)) r); auto; [| |ring].
    - destruct (ss_covers (map e_val (ent p t s)) r Hn H0 ltac:(lra)) as [Hk Hc].
      set (k := searchsorted (cumsum (map e_val (ent p t s))) r) in *. rewrite map_length in Hk.
      destruct (lt_at _ (map e_to (ent p t s)) k) as [j Hj]; [rewrite map_length; auto|].
      exists k, j. split; [|auto].
      assert (Elen : length (concat (firstn (index_of s (unique states)) rows)) =
                     length (concat (firstn (index_of s (unique states)) (map (fun x => map e_to (ent p t x)) (unique states))))).
      { unfold rows. rewrite !firstn_map.
        rewrite <- (map_map (ent p t) (map e_val)), <- (map_map (ent p t) (map e_to)).
        rewrite !concat_map_length. reflexivity. }
      rewrite Elen. apply (concat_offset Z _ _ (map e_to (ent p t s))); auto.
      unfold at_. rewrite nth_error_map. unfold at_ in Hat. rewrite Hat. reflexivity.
    - unfold rows. apply Forall_forall. intros l Hin. apply in_map_iff in Hin as (u & <- & Hu).
      apply (proj1 (unique_in states u)) in Hu. specialize (Hst u Hu). unfold stochastic_row in Hst. rewrite row_of_ent, map_map in Hst. exact Hst. }
  match goal with |- exists out, mapM ?f ?l = _ /\ _ => destruct (mapM_total _ _ f l) as [out E] end.
  { intros [s r] Hin. apply in_combine_l in Hin as Hs. apply in_combine_r in Hin as Hr. apply in_at in Hr as [i Hr].
    destruct (Hd i r Hr) as [H0 H1]. destruct (One s r Hs H0 H1) as (k & j & E & _). simpl. rewrite E. eauto. }
  exists out. split; auto. apply mapM_ok in E as [El En]. split; [rewrite El, combine_length; lia|].
  intros i s r Hs Hr. assert (Hc : nth_error (combine states draws) i = Some (s, r)).
  { unfold at_ in *. clear - Hs Hr. revert draws i Hs Hr. induction states as [|a l IH]; intros [|b m] [|i] Hs Hr; simpl in *; try discriminate; try congruence. eauto. }
  destruct (En i (s, r) Hc) as (j & Hj & Ej). simpl in Ej.
  destruct (Hd i r Hr) as [H0 H1].
  destruct (One s r (at_in _ _ _ _ Hs) H0 H1) as (k & j' & E' & Hk & Hcov). rewrite E' in Ej. injection Ej as <-.
  exists k, j'. auto.
Qed.

Lemma sparse_mc_unfold : forall fuel p time states draws, n_times p <> 0%Z -> parallel p ->
  sparse_mc (S fuel) p time states draws =
  (let t := (time mod n_times p)%Z in
   let sel := selected p t states in
   match existsb (fun s => negb (isin s (map e_from sel))) states, dead_state p with
   | true, Some d => sparse_mc fuel p t (map (fun s => if isin s (map e_from sel) then s else d) states) draws
   | _, _ =>
     mapM (fun sr => match nth_error (map e_to sel)
              (searchsorted (cumsum (map e_val sel)) (snd sr + inject_Z (Z.of_nat (index_of (fst sr) (unique states))))) with
              | Some j => Ok j | None => Err IndexError end) (combine states draws)
   end).
Proof.
  intros fuel p time states draws Hn Hp. cbn [sparse_mc]. unfold check_time.
  destruct (Z.eqb_spec (n_times p) 0); [lia|]. cbn [bind]. rewrite (entries_parallel p Hp). reflexivity.
Qed.

Lemma existsb_false_all : forall A (f : A -> bool) l, existsb f l = false <-> forall x, In x l -> f x = false.
Proof.
  intros A f l. split.
  - intros H x Hx. destruct (f x) eqn:E; auto. assert (existsb f l = true) by (apply existsb_exists; eauto). congruence.
  - intro H. destruct (existsb f l) eqn:E; auto. apply existsb_exists in E as (x & Hx & E). rewrite H in E; auto.
Qed.

Theorem sparse_mc_live : forall fuel p time states draws,
  n_times p <> 0%Z -> parallel p -> ordered_by_origin p (time mod n_times p) ->
  (forall s, In s states -> stochastic_row p (time mod n_times p) s) ->
  length draws = length states -> (forall i r, at_ draws i r -> 0 < r /\ r <= 1) ->
  exists out, sparse_mc (S fuel) p time states draws = Ok out /\ length out = length states /\
    forall i s r, at_ states i s -> at_ draws i r ->
      exists k j, at_ out i j /\ at_ (map fst (row_of p (time mod n_times p) s)) k j /\
        covers (map snd (row_of p (time mod n_times p) s)) r k.
Proof.
  intros fuel p time states draws Hn Hp Ho Hst Hl Hd. rewrite sparse_mc_unfold by auto. cbv zeta.
  set (t := (time mod n_times p)%Z) in *.
  assert (E : existsb (fun s => negb (isin s (map e_from (selected p t states)))) states = false).
  { apply existsb_false_all. intros s Hs. apply negb_false_iff, isin_in. apply (selected_live p t states s Hs).
    intro Hnil. pose proof (Hst s Hs) as [_ Ht]. rewrite Hnil in Ht. unfold total in Ht; simpl in Ht. lra. }
  rewrite E. destruct (dead_state p); apply sample_ok; auto.
Qed.

(** ** Dense rows *)

Definition look (row : list (Z * Q)) (j : Z) (d : Q) : Q :=
  fold_left (fun acc e => if (fst e =? j)%Z then snd e else acc) row d.

Lemma overlay_look : forall p t i j d,
  overlay (filter (fun e => (e_time e =? t)%Z) (zip4 (t_times p) (t_from p) (t_to p) (t_values p))) i j d =
  look (row_of p t i) j d.
Proof.
  intros p t i j. unfold row_of, overlay, look. generalize (zip4 (t_times p) (t_from p) (t_to p) (t_values p)).
  induction l as [|e l IH]; intro d; simpl; auto.
  destruct (e_time e =? t)%Z; simpl; auto. destruct (e_from e =? i)%Z; simpl; auto.
Qed.

Definition below (row : list (Z * Q)) (j : Z) : Q :=
  qsum (map snd (filter (fun e => (fst e <? j)%Z) row)).

Lemma look_not_in : forall row j d, ~ In j (map fst row) -> look row j d = d.
Proof.
  induction row as [|[a v] row IH]; intros j d H; simpl in *; auto.
  destruct (Z.eqb_spec a j); [tauto|]. apply IH. tauto.
Qed.

Lemma below_succ : forall row j, NoDup (map fst row) -> below row (j + 1) == below row j + look row j 0.
Proof.
  induction row as [|[a v] row IH]; intros j Hnd; [unfold below; simpl; ring|].
  inversion Hnd as [|? ? Hni Hnd']; subst. specialize (IH j Hnd'). unfold below in *. simpl in *.
  destruct (Z.eqb_spec a j) as [Ea|Ea].
  - subst a. rewrite look_not_in by auto. rewrite look_not_in in IH by auto.
    replace ((j <? j + 1)%Z) with true by lia. replace ((j <? j)%Z) with false by lia. simpl. rewrite IH. ring.
  - destruct (Z.ltb_spec a (j + 1)), (Z.ltb_spec a j); try lia; simpl; rewrite IH; ring.
Qed.

Lemma below_neg : forall row, (forall j, In j (map fst row) -> (0 <= j)%Z) -> below row 0 == 0.
Proof.
  intros row H. unfold below. rewrite filter_none; [reflexivity|]. intros [a v] Hin. simpl.
  specialize (H a (in_map fst _ _ Hin)). lia.
Qed.

(** With increasing targets, what lies below the k-th target is the mass of the
    first k entries. *)
Lemma below_sorted : forall row k a, StronglySorted Z.lt (map fst row) -> at_ (map fst row) k a ->
  below row a == qsum (firstn k (map snd row)) /\ below row (a + 1) == qsum (firstn (S k) (map snd row)).
Proof.
  induction row as [|[b v] row IH]; intros k a Hs Hk; [destruct k; discriminate|].
  inversion Hs as [|? ? Hs' Hf]; subst. rewrite Forall_forall in Hf.
  assert (Hgt : forall x, In x row -> (b < fst x)%Z) by (intros x Hx; apply Hf, in_map; auto).
  unfold below in *. destruct k as [|k]; unfold at_ in Hk; simpl in Hk.
  - injection Hk as ->. simpl. replace ((a <? a)%Z) with false by lia. replace ((a <? a + 1)%Z) with true by lia.
    rewrite !filter_none; [simpl; split; ring| |].
    + intros x Hx. specialize (Hgt x Hx). simpl in Hgt. lia.
    + intros x Hx. specialize (Hgt x Hx). simpl in Hgt. lia.
  - assert (Hba : (b < a)%Z) by (apply Hf; eapply nth_error_In; eauto).
    destruct (IH k a Hs' Hk) as [H1 H2]. simpl.
    replace ((b <? a)%Z) with true by lia. replace ((b <? a + 1)%Z) with true by lia. simpl. rewrite H1, H2. split; reflexivity.
Qed.

Lemma sorted_lt_nodup : forall l, StronglySorted Z.lt l -> NoDup l.
Proof.
  induction l as [|x l IH]; intro H; constructor; inversion H as [|? ? Hs Hf]; subst; auto.
  intro Hin. rewrite Forall_forall in Hf. specialize (Hf x Hin). lia.
Qed.

Lemma sp_get_rows : forall p time m, sp_get p (KInt time) = Ok m ->
  (forall e, In e (zip4 (t_times p) (t_from p) (t_to p) (t_values p)) -> e_time e = (time mod n_times p)%Z -> in_range (Z.to_nat (n_states p)) e) ->
  square (Z.to_nat (n_states p)) m /\
  forall i j, (i < Z.to_nat (n_states p))%nat -> (j < Z.to_nat (n_states p))%nat ->
    mget m i j = look (row_of p (time mod n_times p) (Z.of_nat i)) (Z.of_nat j) 0.
Proof.
  intros p time m H Hr. unfold sp_get, check_time in H.
  destruct (Z.eqb_spec (n_times p) 0) as [|Hn]; simpl in H; [discriminate|].
  destruct (entries p) as [es|] eqn:Ee; simpl in H; [|discriminate].
  apply entries_ok in Ee as [Hp ->].
  destruct (mat_assign_spec (Z.to_nat (n_states p)) (filter (fun e => (e_time e =? time mod n_times p)%Z) (zip4 (t_times p) (t_from p) (t_to p) (t_values p))) _ (repeat_square _)) as (m' & E & Hs & Hg).
  { apply Forall_forall. intros e He. apply filter_In in He as [He Ht]. apply Z.eqb_eq in Ht. apply Hr; auto. }
  rewrite E in H. injection H as <-. split; auto.
  intros i j Hi Hj. rewrite (Hg i j Hi Hj), repeat_mget. apply overlay_look.
Qed.

Lemma dense_mass : forall (row : list Q) sp n, length row = n -> NoDup (map fst sp) -> (forall j, In j (map fst sp) -> (0 <= j)%Z) ->
  (forall j, (j < n)%nat -> nth j row 0 = look sp (Z.of_nat j) 0) ->
  forall j, (j <= n)%nat -> mass_before row j == below sp (Z.of_nat j).
Proof.
  intros row sp n Hl Hnd Hpos Hrow. induction j as [|j IH]; intro Hj.
  - unfold mass_before; simpl. unfold total; simpl. rewrite below_neg by auto. reflexivity.
  - destruct (lt_at _ row j ltac:(lia)) as [x Hx]. rewrite (mass_step row j x Hx), IH by lia.
    replace (Z.of_nat (S j)) with (Z.of_nat j + 1)%Z by lia. rewrite below_succ by auto.
    rewrite <- (Hrow j ltac:(lia)), (nth_error_nth _ _ _ Hx). reflexivity.
Qed.

(** The dense row of a state, read through __getitem__, is sampled. *)
Theorem sparse_mc_dense : forall fuel p time states draws m out,
  n_times p <> 0%Z -> parallel p -> ordered_by_origin p (time mod n_times p) ->
  (forall s, In s states -> stochastic_row p (time mod n_times p) s /\ Sorted Z.lt (map fst (row_of p (time mod n_times p) s))) ->
  (forall e, In e (zip4 (t_times p) (t_from p) (t_to p) (t_values p)) -> e_time e = (time mod n_times p)%Z -> in_range (Z.to_nat (n_states p)) e) ->
  length draws = length states -> (forall i r, at_ draws i r -> 0 < r /\ r <= 1) ->
  sp_get p (KInt time) = Ok m -> sparse_mc (S fuel) p time states draws = Ok out ->
  forall i s r, at_ states i s -> at_ draws i r ->
    exists row j, at_ m (Z.to_nat s) row /\ at_ out i j /\ covers row r (Z.to_nat j).
Proof.
  intros fuel p time states draws m out Hn Hp Ho Hst Hr Hl Hd Hm Hout i s r Hs Hrr.
  destruct (sparse_mc_live fuel p time states draws Hn Hp Ho (fun s H => proj1 (Hst s H)) Hl Hd) as (out' & E & _ & Hall).
  rewrite E in Hout. injection Hout as <-. set (t := (time mod n_times p)%Z) in *.
  destruct (Hall i s r Hs Hrr) as (k & j & Hj & Hk & Hc).
  destruct (sp_get_rows p time m Hm Hr) as [Hsq Hg]. fold t in Hg.
  destruct (Hst s (at_in _ _ _ _ Hs)) as [_ Hsort]. apply Sorted_StronglySorted in Hsort; [|intros x y z; apply Z.lt_trans].
  (* the entry that was drawn *)
  assert (Hent : exists e, In e (zip4 (t_times p) (t_from p) (t_to p) (t_values p)) /\ e_time e = t /\ e_from e = s /\ e_to e = j).
  { unfold row_of in Hk. rewrite map_map in Hk. simpl in Hk. apply at_in, in_map_iff in Hk as (e & <- & He).
    apply filter_In in He as [He Hb]. apply andb_true_iff in Hb as [H1 H2]. exists e. repeat split; auto; lia. }
  destruct Hent as (e & He & Ht & Hf & Hto). destruct (Hr e He Ht) as [Rf Rt]. rewrite Hf, Hto in *.
  set (n := Z.to_nat (n_states p)) in *.
  destruct Hsq as [Hml Hmr]. destruct (lt_at _ m (Z.to_nat s) ltac:(lia)) as [row Hrow].
  exists row, j. repeat split; auto.
  - pose proof (dense_mass row (row_of p t s) n (Hmr _ _ Hrow) (sorted_lt_nodup _ Hsort)) as D.
    assert (Dj : mass_before row (Z.to_nat j) == below (row_of p t s) j).
    { rewrite D; try lia; [rewrite Z2Nat.id by lia; reflexivity| |].
      - intros x Hx. unfold row_of in Hx. rewrite map_map in Hx. apply in_map_iff in Hx as (e' & <- & He').
        apply filter_In in He' as [He' Hb]. apply andb_true_iff in Hb as [H1 _]. simpl. destruct (Hr e' He' ltac:(lia)) as [_ ?]. lia.
      - intros q Hq. specialize (Hg (Z.to_nat s) q ltac:(lia) Hq). unfold mget in Hg.
        rewrite (nth_error_nth _ _ _ Hrow), Z2Nat.id in Hg by lia. exact Hg. }
    rewrite Dj. rewrite (proj1 (below_sorted _ _ _ Hsort Hk)). destruct Hc as [Hc _].
    unfold mass_before in Hc. rewrite total_qsum in Hc. exact Hc.
  - pose proof (dense_mass row (row_of p t s) n (Hmr _ _ Hrow) (sorted_lt_nodup _ Hsort)) as D.
    assert (Dj : mass_before row (S (Z.to_nat j)) == below (row_of p t s) (j + 1)).
    { rewrite D; try lia; [replace (Z.of_nat (S (Z.to_nat j))) with (j + 1)%Z by lia; reflexivity| |].
      - intros x Hx. unfold row_of in Hx. rewrite map_map in Hx. apply in_map_iff in Hx as (e' & <- & He').
        apply filter_In in He' as [He' Hb]. apply andb_true_iff in Hb as [H1 _]. simpl. destruct (Hr e' He' ltac:(lia)) as [_ ?]. lia.
      - intros q Hq. specialize (Hg (Z.to_nat s) q ltac:(lia) Hq). unfold mget in Hg.
        rewrite (nth_error_nth _ _ _ Hrow), Z2Nat.id in Hg by lia. exact Hg. }
    rewrite Dj. rewrite (proj2 (below_sorted _ _ _ Hsort Hk)). destruct Hc as [_ Hc].
    unfold mass_before in Hc. rewrite total_qsum in Hc. exact Hc.
Qed.

(** ** Dead states *)

Theorem sparse_mc_dead : forall fuel p time states draws d,
  n_times p <> 0%Z -> parallel p -> ordered_by_origin p (time mod n_times p) ->
  dead_state p = Some d -> stochastic_row p (time mod n_times p) d ->
  (forall s, In s states -> stochastic_row p (time mod n_times p) s \/ row_of p (time mod n_times p) s = []) ->
  length draws = length states -> (forall i r, at_ draws i r -> 0 < r /\ r <= 1) ->
  exists out, sparse_mc (S (S fuel)) p time states draws = Ok out /\ length out = length states /\
    forall i s r s', at_ states i s -> at_ draws i r ->
      (row_of p (time mod n_times p) s = [] -> s' = d) -> (row_of p (time mod n_times p) s <> [] -> s' = s) ->
      exists k j, at_ out i j /\ at_ (map fst (row_of p (time mod n_times p) s')) k j /\
        covers (map snd (row_of p (time mod n_times p) s')) r k.
Proof.
  intros fuel p time states draws d Hn Hp Ho Hd Hsd Hst Hl Hdr. rewrite sparse_mc_unfold by auto. cbv zeta.
  set (t := (time mod n_times p)%Z) in *. rewrite Hd.
  assert (Hlive : forall s, In s states -> isin s (map e_from (selected p t states)) = true <-> row_of p t s <> []).
  { intros s Hs. rewrite isin_in. apply selected_live; auto. }
  destruct (existsb (fun s => negb (isin s (map e_from (selected p t states)))) states) eqn:E.
  - assert (Ett : (t mod n_times p = t)%Z) by (apply Z.mod_mod; auto).
    destruct (sparse_mc_live fuel p t (map (fun s => if isin s (map e_from (selected p t states)) then s else d) states) draws) as (out & Eo & Hlo & Hall); auto.
    + rewrite Ett. exact Ho.
    + rewrite Ett. intros s' Hs'. apply in_map_iff in Hs' as (s & <- & Hs). destruct (isin s (map e_from (selected p t states))) eqn:Ei; auto.
      apply Hlive in Ei; auto. destruct (Hst s Hs); tauto.
    + rewrite map_length. auto.
    + exists out. split; auto. rewrite map_length in Hlo. split; auto. rewrite Ett in Hall.
      intros i s r s' Hs Hr H1 H2. apply (Hall i s' r); auto. unfold at_ in *. rewrite nth_error_map, Hs. simpl. f_equal.
      pose proof (Hlive s (at_in _ _ _ _ Hs)) as HL.
      destruct (isin s (map e_from (selected p t states))) eqn:Ei.
      * symmetry. apply H2, HL; auto.
      * symmetry. apply H1. destruct (row_of p t s) eqn:Er; auto. exfalso. assert (false = true) by (apply HL; discriminate). discriminate.
  - assert (Hall' : forall s, In s states -> stochastic_row p t s).
    { intros s Hs. destruct (Hst s Hs) as [|Hnil]; auto. exfalso.
      rewrite existsb_false_all in E. specialize (E s Hs). apply negb_false_iff in E. apply Hlive in E; auto. }
    destruct (sample_ok p t states draws Ho Hall' Hl Hdr) as (out & Eo & Hlo & Hall). exists out. split; auto. split; auto.
    intros i s r s' Hs Hr H1 H2. assert (s' = s); [|subst; eauto]. apply H2.
    apply Hlive; [eapply at_in; eauto|]. rewrite existsb_false_all in E. specialize (E s (at_in _ _ _ _ Hs)).
    apply negb_false_iff in E. exact E.
Qed.

Theorem sparse_mc_dead_dead : forall fuel p time states draws d,
  n_times p <> 0%Z -> parallel p -> dead_state p = Some d -> row_of p (time mod n_times p) d = [] ->
  (exists s, In s states /\ row_of p (time mod n_times p) s = []) ->
  sparse_mc fuel p time states draws = Err RecursionError.
Proof.
  induction fuel as [|fuel IH]; intros p time states draws d Hn Hp Hd Hdd (s & Hs & Hnil); [reflexivity|].
  rewrite sparse_mc_unfold by auto. cbv zeta. rewrite Hd. set (t := (time mod n_times p)%Z) in *.
  assert (Hdead : isin s (map e_from (selected p t states)) = false).
  { apply isin_false. rewrite (selected_live p t states s Hs). tauto. }
  assert (E : existsb (fun s => negb (isin s (map e_from (selected p t states)))) states = true).
  { apply existsb_exists. exists s. rewrite Hdead. auto. }
  rewrite E. assert (Ett : (t mod n_times p = t)%Z) by (apply Z.mod_mod; auto).
  apply (IH p t _ draws d); auto; rewrite ?Ett; auto.
  exists d. split; auto. apply in_map_iff. exists s. rewrite Hdead. auto.
Qed.

(** ** Construction, save and load *)

Lemma lengths_accepted_eq : forall n, lengths_accepted n n n n = true.
Proof. intro n. unfold lengths_accepted. rewrite Z.land_diag, Z.eqb_refl. reflexivity. Qed.

Lemma lengths_accepted_iff : forall nt nf nto nv, lengths_accepted nt nf nto nv = true <->
  nv = nt /\ Z.land nf nt = nt /\ Z.land nto nt = nt.
Proof.
  intros. unfold lengths_accepted. rewrite !andb_true_iff, !Z.eqb_eq. split; [intros [[H1 H2] H3]|intros (H1 & H2 & H3)]; repeat split; congruence.
Qed.

Lemma land_le : forall a b, (0 <= a)%Z -> (0 <= b)%Z -> (Z.land a b <= a)%Z.
Proof.
  intros a b Ha Hb.
  assert (H : (Z.land a b + Z.ldiff a b = a)%Z).
  { rewrite Z.add_nocarry_lxor.
    - rewrite Z.lxor_lor.
      + apply Z.bits_inj'. intros n Hn.
        rewrite Z.lor_spec, Z.land_spec, Z.ldiff_spec. destruct (Z.testbit a n), (Z.testbit b n); reflexivity.
      + apply Z.bits_inj'. intros n Hn. rewrite !Z.land_spec, Z.ldiff_spec, Z.bits_0. destruct (Z.testbit a n), (Z.testbit b n); reflexivity.
    - apply Z.bits_inj'. intros n Hn. rewrite !Z.land_spec, Z.ldiff_spec, Z.bits_0. destruct (Z.testbit a n), (Z.testbit b n); reflexivity. }
  assert (0 <= Z.ldiff a b)%Z by (apply Z.ldiff_nonneg; auto). lia.
Qed.

Lemma u16_small : forall l, (forall x, In x l -> (0 <= x < 65536)%Z) -> map u16 l = l.
Proof.
  induction l as [|x l IH]; intro H; auto. simpl. rewrite IH by (intros; apply H; right; auto).
  f_equal. unfold u16. apply Z.mod_small, H. left; auto.
Qed.

Theorem load_save : forall times from to values dead p,
  (forall x, In x times \/ In x from \/ In x to -> (0 <= x < 65536)%Z) ->
  sp_init times from to values None None dead = Ok p ->
  exists p', sp_load (sp_save p) = Ok p' /\
    t_times p' = t_times p /\ t_from p' = t_from p /\ t_to p' = t_to p /\ t_values p' = t_values p /\
    n_states p' = n_states p /\ n_times p' = n_times p /\ dead_state p' = None /\
    (forall k, sp_get p' k = sp_get p k).
Proof.
  intros times from to values dead p Hb H. unfold sp_init in H.
  rewrite !u16_small in H by (intros x Hx; apply Hb; tauto).
  destruct (lengths_accepted _ _ _ _) eqn:E in H; [|discriminate]. injection H as <-.
  unfold sp_load, sp_save, sp_init; simpl.
  rewrite !u16_small by (intros x Hx; apply Hb; tauto). rewrite E.
  eexists. split; [reflexivity|]. simpl. repeat split; auto.
Qed.

Theorem init_accepts : forall times from to values ns nt dead,
  (exists p, sp_init times from to values ns nt dead = Ok p) <->
  length values = length times /\
  Z.land (Z.of_nat (length from)) (Z.of_nat (length times)) = Z.of_nat (length times) /\
  Z.land (Z.of_nat (length to)) (Z.of_nat (length times)) = Z.of_nat (length times).
Proof.
  intros. unfold sp_init.
  pose proof (lengths_accepted_iff (Z.of_nat (length times)) (Z.of_nat (length from)) (Z.of_nat (length to)) (Z.of_nat (length values))) as L.
  destruct (lengths_accepted _ _ _ _).
  - split; [|eauto]. intros _. destruct (proj1 L eq_refl) as (H1 & H2 & H3). repeat split; auto. lia.
  - split; [intros [p Hp]; discriminate|]. intros (H1 & H2 & H3). exfalso.
    assert (false = true) by (apply L; repeat split; auto; congruence). discriminate.
Qed.

Theorem init_rejects_partial : forall times from to values ns nt dead,
  (length values <> length times \/ (length from < length times)%nat \/ (length to < length times)%nat) ->
  sp_init times from to values ns nt dead = Err ValueError.
Proof.
  intros times from to values ns nt dead H.
  destruct (sp_init times from to values ns nt dead) as [p|e] eqn:E.
  - exfalso. destruct (proj1 (init_accepts times from to values ns nt dead)) as (H1 & H2 & H3); [eauto|].
    pose proof (land_le (Z.of_nat (length from)) (Z.of_nat (length times)) ltac:(lia) ltac:(lia)).
    pose proof (land_le (Z.of_nat (length to)) (Z.of_nat (length times)) ltac:(lia) ltac:(lia)). lia.
  - unfold sp_init in E. destruct (lengths_accepted _ _ _ _) in E; [discriminate|]. congruence.
Qed.

Theorem init_accepts_equal : forall times from to values ns nt dead,
  length from = length times -> length to = length times -> length values = length times ->
  exists p, sp_init times from to values ns nt dead = Ok p /\ parallel p.
Proof.
  intros times from to values ns nt dead H1 H2 H3. unfold sp_init. rewrite H1, H2, H3, lengths_accepted_eq.
  eexists. split; [reflexivity|]. unfold parallel; simpl. rewrite !map_length. auto.
Qed.

(** ** Sampling from a matrix that was assigned *)

Lemma nonzero_row_sorted : forall t a row b, StronglySorted Z.lt (map e_to (nonzero_row t a b row)).
Proof.
  intros t a. induction row as [|v row IH]; intro b; simpl; [constructor|].
  destruct (Qeq_bool v 0); auto. simpl. constructor; auto. apply Forall_forall. intros x Hx.
  apply in_map_iff in Hx as (e & <- & He). apply nonzero_row_props in He. lia.
Qed.

Lemma nonzero_mat_sorted : forall n t m a, (forall k row, at_ m k row -> length row = n) ->
  StronglySorted Z.le (map e_from (nonzero_mat t a m)).
Proof.
  intros n t. induction m as [|row m IH]; intros a Hm; simpl; [constructor|].
  rewrite map_app.
  assert (H1 : forall x, In x (map e_from (nonzero_row t a 0 row)) -> x = a).
  { intros x Hx. apply in_map_iff in Hx as (e & <- & He). apply nonzero_row_props in He. tauto. }
  assert (Hm' : forall k r, at_ m k r -> length r = n) by (intros k r Hk; apply (Hm (S k)); auto).
  assert (H2 : forall x, In x (map e_from (nonzero_mat t (a + 1) m)) -> (a < x)%Z).
  { intros x Hx. apply in_map_iff in Hx as (e & <- & He). apply (nonzero_mat_props n) in He; auto. lia. }
  specialize (IH (a + 1)%Z Hm'). revert H1. generalize (map e_from (nonzero_row t a 0 row)).
  induction l as [|x l IHl]; intro H1; simpl; auto. constructor.
  - apply IHl. intros y Hy. apply H1. right; auto.
  - apply Forall_forall. intros y Hy. rewrite (H1 x) by (left; auto). apply in_app_or in Hy as [Hy|Hy].
    + rewrite (H1 y) by (right; auto). lia.
    + specialize (H2 y Hy). lia.
Qed.

Lemma nonzero_mat_row : forall n t m a i row, (forall k row, at_ m k row -> length row = n) -> at_ m i row ->
  filter (fun e => (e_from e =? a + Z.of_nat i)%Z) (nonzero_mat t a m) = nonzero_row t (a + Z.of_nat i) 0 row.
Proof.
  intros n t. induction m as [|row0 m IH]; intros a i row Hm Hi; [destruct i; discriminate|].
  assert (Hm' : forall k r, at_ m k r -> length r = n) by (intros k r Hk; apply (Hm (S k)); auto).
  simpl nonzero_mat. rewrite filter_app. destruct i as [|i]; unfold at_ in Hi; simpl in Hi.
  - injection Hi as ->. change (Z.of_nat 0) with 0%Z. rewrite Z.add_0_r. rewrite filter_all, filter_none; [apply app_nil_r| |].
    + intros e He. apply (nonzero_mat_props n) in He; auto. lia.
    + intros e He. apply nonzero_row_props in He. lia.
  - rewrite filter_none; [|intros e He; apply nonzero_row_props in He; lia]. simpl app.
    replace (a + Z.of_nat (S i))%Z with (a + 1 + Z.of_nat i)%Z by lia. apply IH; auto.
Qed.

Lemma nonzero_row_total : forall t a row b, qsum (map e_val (nonzero_row t a b row)) == qsum row.
Proof.
  intros t a. induction row as [|v row IH]; intro b; simpl; [reflexivity|].
  destruct (Qeq_bool v 0) eqn:E.
  - apply Qeq_bool_iff in E. rewrite IH, E. ring.
  - simpl. rewrite IH. reflexivity.
Qed.

Lemma nonzero_row_nonneg : forall t a row b, Forall (fun x => 0 <= x) row -> Forall (fun x => 0 <= x) (map e_val (nonzero_row t a b row)).
Proof.
  intros t a. induction row as [|v row IH]; intros b H; simpl; [constructor|]. inversion H; subst.
  destruct (Qeq_bool v 0); simpl; auto.
Qed.

Lemma mass_before_Qeq : forall l m k, eqQ_list l m -> mass_before l k == mass_before m k.
Proof.
  intros l m k H. unfold mass_before. revert k. induction H as [|x y l m Hxy H IH]; intro k.
  - destruct k; reflexivity.
  - destruct k as [|k]; [reflexivity|]. simpl. unfold total in *. simpl. rewrite Hxy, (IH k). reflexivity.
Qed.

Theorem sample_assigned : forall fuel p p' t m states draws, sp_set p (KInt t) m = Ok p' ->
  (forall i row, at_ m i row -> is_pdf row) ->
  (forall s, In s states -> (0 <= s < Z.of_nat (length m))%Z) ->
  length draws = length states -> (forall i r, at_ draws i r -> 0 < r /\ r <= 1) ->
  exists out, sparse_mc (S fuel) p' t states draws = Ok out /\ length out = length states /\
    forall i s r, at_ states i s -> at_ draws i r ->
      exists row j, at_ m (Z.to_nat s) row /\ at_ out i j /\ covers row r (Z.to_nat j) /\ (Z.to_nat j < length row)%nat.
Proof.
  intros fuel p p' t m states draws H Hm Hs Hl Hd.
  pose proof H as Hset. destruct (set_get _ _ _ _ H t eq_refl) as (m' & Hget & Hsame).
  unfold sp_set, check_time in H.
  destruct (Z.eqb_spec (n_times p) 0) as [|Hn]; simpl in H; [discriminate|].
  destruct (_ && _) eqn:Hsh in H; [|discriminate]. apply shape_ok in Hsh.
  destruct (entries p) as [es|] eqn:Ee; simpl in H; [|discriminate].
  set (tt := (t mod n_times p)%Z) in *. set (n := Z.to_nat (n_states p)) in *.
  assert (Hrowlen : forall k row, at_ m k row -> length row = n) by apply Hsh.
  assert (Hp' : n_times p' = n_times p /\ n_states p' = n_states p) by (injection H as <-; auto).
  destruct Hp' as [Hnt Hns].
  assert (Hz : zip4 (t_times p') (t_from p') (t_to p') (t_values p') = filter (fun e => negb (e_time e =? tt)%Z) es ++ nonzero_mat tt 0 m).
  { injection H as <-. apply zip4_maps. }
  assert (Hpar : parallel p').
  { injection H as <-. unfold parallel, with_entries; simpl. rewrite !map_length. auto. }
  assert (Hf : filter (fun e => (e_time e =? tt)%Z) (zip4 (t_times p') (t_from p') (t_to p') (t_values p')) = nonzero_mat tt 0 m).
  { rewrite Hz, filter_app, filter_comp. rewrite (filter_none _ _ es).
    - simpl. apply filter_all. intros e He. apply (nonzero_mat_props n) in He; auto. lia.
    - intros e _. destruct (e_time e =? tt)%Z; reflexivity. }
  assert (Hrow : forall i row, at_ m i row -> row_of p' tt (Z.of_nat i) = map (fun e => (e_to e, e_val e)) (nonzero_row tt (Z.of_nat i) 0 row)).
  { intros i row Hi. unfold row_of. f_equal.
    rewrite <- (filter_comp _ (fun e => (e_from e =? Z.of_nat i)%Z) (fun e => (e_time e =? tt)%Z)), Hf.
    apply (nonzero_mat_row n tt m 0 i row Hrowlen Hi). }
  assert (Hord : ordered_by_origin p' tt).
  { unfold ordered_by_origin. rewrite Hf. apply StronglySorted_Sorted, (nonzero_mat_sorted n); auto. }
  assert (Hst : forall s, In s states -> stochastic_row p' tt s /\ Sorted Z.lt (map fst (row_of p' tt s))).
  { intros s Hin. specialize (Hs s Hin). destruct (lt_at _ m (Z.to_nat s) ltac:(lia)) as [row Hr].
    pose proof (Hrow _ _ Hr) as E. rewrite Z2Nat.id in E by lia. unfold stochastic_row. rewrite E, !map_map. simpl.
    destruct (Hm _ _ Hr) as [Hpos Htot]. split.
    - split.
      + apply nonneg_Forall. apply nonzero_row_nonneg. apply nonneg_Forall; auto.
      + rewrite total_qsum. rewrite nonzero_row_total. rewrite <- (total_qsum row). exact Htot.
    - apply StronglySorted_Sorted, nonzero_row_sorted. }
  assert (Ett : (t mod n_times p')%Z = tt) by (rewrite Hnt; reflexivity).
  destruct (sparse_mc_live fuel p' t states draws) as (out & E & Hlo & Hall); auto; rewrite ?Ett; try congruence.
  { intros s Hin. apply Hst; auto. }
  exists out. split; auto. split; auto. intros i s r Hi Hr.
  destruct (sparse_mc_dense fuel p' t states draws m' out) with (i := i) (s := s) (r := r) as (row' & j & H1 & H2 & H3);
    auto; rewrite ?Ett, ?Hns; try congruence; auto.
  { intros e He Ht. fold n.
    assert (Hin : In e (nonzero_mat tt 0 m)).
    { rewrite <- Hf. apply filter_In. split; auto. lia. }
    apply (nonzero_mat_props n) in Hin; auto. destruct Hsh as [Hlm _]. unfold in_range. lia. }
  pose proof (Hs s (at_in _ _ _ _ Hi)) as Bs.
  destruct (lt_at _ m (Z.to_nat s) ltac:(lia)) as [row Hrow'].
  exists row, j. split; auto. split; auto.
  assert (Heq : eqQ_list row' row).
  { clear - Hsame H1 Hrow'. unfold same_matrix in Hsame. revert H1 Hrow'. generalize (Z.to_nat s). unfold at_.
    induction Hsame as [|x y l l' Hxy HF IH]; intros k H1 H2; [destruct k; discriminate|].
    destruct k as [|k]; simpl in *; [congruence|eauto]. }
  split.
  - destruct H3 as [H3 H4]. unfold covers. rewrite <- !(mass_before_Qeq _ _ _ Heq). auto.
  - destruct (Hall i s r Hi Hr) as (k & j' & Hj' & Hk & _). rewrite (at_fun _ _ _ _ _ H2 Hj').
    rewrite Ett in Hk. pose proof (Hrow _ _ Hrow') as E'. rewrite Z2Nat.id in E' by lia. rewrite E', map_map in Hk.
    apply at_in, in_map_iff in Hk as (e & <- & He). apply nonzero_row_props in He. simpl. lia.
Qed.

Theorem iter_spec : forall p ms, sp_iter p = Ok ms ->
  length ms = Z.to_nat (n_times p) /\ forall i m, at_ ms i m -> sp_get p (KInt (Z.of_nat i)) = Ok m.
Proof.
  intros p ms H. unfold sp_iter in H. apply mapM_ok in H as [Hl Hn]. rewrite seq_length in Hl. split; auto.
  intros i m Hi. assert (Hlt : (i < Z.to_nat (n_times p))%nat) by (rewrite <- Hl; eapply at_lt; eauto).
  assert (Hs : nth_error (seq 0 (Z.to_nat (n_times p))) i = Some i).
  { rewrite (nth_error_nth' _ 0%nat) by (rewrite seq_length; auto). rewrite seq_nth by auto. reflexivity. }
  destruct (Hn i i Hs) as (m' & Hm' & E). unfold at_ in Hi. congruence.
Qed.

(** ** Sizes *)

Lemma zmax_upper : forall l d x, In x l \/ x = d -> (x <= zmax d l)%Z.
Proof. induction l as [|y l IH]; intros d x H; cbn [zmax]; [destruct H as [[] | ->]; lia|]. destruct H as [[-> | H]|H]; [lia| |]; specialize (IH d x); intuition lia. Qed.
Lemma zmax_member : forall l d, In (zmax d l) (d :: l).
Proof. induction l as [|y l IH]; intro d; cbn; [auto|]. destruct (Z.max_spec y (zmax d l)) as [[_ E]|[_ E]]; rewrite E; [|auto]. destruct (IH d) as [H|H]; [left; exact H|auto]. Qed.
Lemma list_max_Z_largest : forall l, l <> [] -> In (list_max_Z l) l /\ forall x, In x l -> (x <= list_max_Z l)%Z.
Proof. intros [|d l] N; [congruence|]. unfold list_max_Z. split; [apply zmax_member|]. intros x [-> | H]; apply zmax_upper; auto. Qed.

Lemma init_sizes : forall times from to values ns nt dead p, length from = length times -> length to = length times ->
  sp_init times from to values ns nt dead = Ok p ->
  (times = [] -> n_states p = 0%Z /\ n_times p = 0%Z) /\
  (times <> [] -> (forall n, ns = Some n -> n_states p = n) /\ (forall n, nt = Some n -> n_times p = n) /\
     (ns = None -> (forall x, In x from \/ In x to -> x < n_states p)%Z /\ (In (n_states p - 1) from \/ In (n_states p - 1) to)%Z) /\
     (nt = None -> (forall x, In x times -> x < n_times p)%Z /\ In (n_times p - 1)%Z times)).
Proof.
  intros times from to values ns nt dead p Lf Lt H. unfold sp_init in H. destruct (lengths_accepted _ _ _ _); [|discriminate].
  injection H as <-. cbn [n_states n_times]. split; [intros ->; split; reflexivity|]. intro N.
  assert (Nf : from <> []) by (intros ->; destruct times; [congruence|discriminate]).
  assert (Nt : to <> []) by (intros ->; destruct times; [congruence|discriminate]).
  destruct (list_max_Z_largest times N) as (T1 & T2). destruct (list_max_Z_largest from Nf) as (F1 & F2). destruct (list_max_Z_largest to Nt) as (U1 & U2).
  destruct times as [|t0 times]; [congruence|]. split; [|split; [|split]].
  - intros n ->. reflexivity.
  - intros n ->. reflexivity.
  - intros ->. split.
    + intros x [X|X]; [apply F2 in X|apply U2 in X]; lia.
    + rewrite Z.add_simpl_r. destruct (Z.max_spec (list_max_Z from) (list_max_Z to)) as [[_ E]|[_ E]]; rewrite E; auto.
  - intros ->. split; [intros x X; apply T2 in X; lia|]. rewrite Z.add_simpl_r. exact T1.
Qed.

Lemma set_nth_shape : forall (A : Type) (l : list A) i v, length (set_nth l i v) = length l.
Proof.
  intros A l i v. unfold set_nth. rewrite app_length, firstn_length. pose proof (skipn_length i l) as K.
  destruct (skipn i l) as [|x t]; cbn [length] in *; lia.
Qed.

Lemma mat_assign_outside : forall es m n, square n m ->
  (forall e, In e es -> 0 <= e_from e /\ 0 <= e_to e)%Z ->
  (exists e, In e es /\ (Z.of_nat n <= e_from e \/ Z.of_nat n <= e_to e)%Z) -> mat_assign m es = Err IndexError.
Proof.
  induction es as [|e es IH]; intros m n [L R] P (x & I & B); [destruct I|]. cbn [mat_assign].
  assert (Q : (exists m', mat_set m (e_from e) (e_to e) (e_val e) = Ok m' /\ square n m' /\ (e_from e < Z.of_nat n)%Z /\ (e_to e < Z.of_nat n)%Z) \/
              mat_set m (e_from e) (e_to e) (e_val e) = Err IndexError).
  { destruct (P e (or_introl eq_refl)) as [P1 P2]. unfold mat_set. destruct (nth_error m (Z.to_nat (e_from e))) as [row|] eqn:E; [|right; reflexivity].
    assert (Lr : length row = n) by (eapply R; exact E). assert (K : (Z.to_nat (e_from e) < n)%nat) by (rewrite <- L; apply nth_error_Some; congruence).
    destruct (Nat.ltb_spec (Z.to_nat (e_to e)) (length row)) as [J|J]; [left|right; reflexivity].
    eexists. split; [reflexivity|]. split; [|split; lia]. split; [rewrite set_nth_shape; exact L|].
    intros i r Hr. unfold set_nth in Hr. apply nth_error_In in Hr. apply in_app_or in Hr. destruct Hr as [Hr|Hr].
    - assert (Hr' : In r m) by (rewrite <- (firstn_skipn (Z.to_nat (e_from e)) m); apply in_or_app; left; exact Hr). clear Hr. rename Hr' into Hr. apply In_nth_error in Hr. destruct Hr as [q Hq]. eapply R. exact Hq.
    - destruct (skipn (Z.to_nat (e_from e)) m) as [|y t] eqn:Ek; [destruct Hr|]. destruct Hr as [<-|Hr]; [change (length (set_nth row (Z.to_nat (e_to e)) (e_val e)) = n); rewrite set_nth_shape; exact Lr|].
      assert (In r m). { rewrite <- (firstn_skipn (Z.to_nat (e_from e)) m), Ek. apply in_or_app. right. right. exact Hr. }
      apply In_nth_error in H. destruct H as [q Hq]. eapply R. exact Hq. }
  destruct Q as [(m' & -> & S' & Q1 & Q2)| ->]; [|reflexivity]. cbn [bind]. apply (IH m' n S').
  - intros y Hy. apply P. right. exact Hy.
  - destruct I as [<-|I]; [lia|]. exists x. split; [exact I|exact B].
Qed.

Lemma get_outside : forall p k i t f u v, n_times p <> 0%Z -> parallel p ->
  (forall j x, at_ (t_from p) j x \/ at_ (t_to p) j x -> 0 <= x)%Z ->
  at_ (t_times p) i t -> at_ (t_from p) i f -> at_ (t_to p) i u -> at_ (t_values p) i v ->
  (t = k mod n_times p)%Z -> (n_states p <= f \/ n_states p <= u)%Z -> sp_get p (KInt k) = Err IndexError.
Proof.
  intros p k i t f u v N (L1 & L2 & L3) P A1 A2 A3 A4 E B. unfold sp_get, check_time, entries.
  destruct (Z.eqb_spec (n_times p) 0) as [|_]; [contradiction|]. cbn [bind]. rewrite L1, L2, L3, !Nat.eqb_refl. cbn [andb bind].
  assert (Z4 : forall ts fs us vs x, In x (zip4 ts fs us vs) -> exists j, at_ ts j (e_time x) /\ at_ fs j (e_from x) /\ at_ us j (e_to x) /\ at_ vs j (e_val x)).
  { induction ts as [|a ts IH]; intros [|b fs] [|c us] [|d vs] x I; try destruct I as [].
    - subst x. exists 0%nat. repeat split.
    - destruct (IH _ _ _ _ H) as (j & J). exists (S j). exact J. }
  assert (Y4 : forall ts fs us vs j a b c d, at_ ts j a -> at_ fs j b -> at_ us j c -> at_ vs j d -> In (mkE a b c d) (zip4 ts fs us vs)).
  { induction ts as [|a ts IH]; intros [|b fs] [|c us] [|d vs] [|j] a' b' c' d' H1 H2 H3 H4; try discriminate.
    - injection H1 as <-. injection H2 as <-. injection H3 as <-. injection H4 as <-. left. reflexivity.
    - right. exact (IH _ _ _ j _ _ _ _ H1 H2 H3 H4). }
  apply (mat_assign_outside _ _ (Z.to_nat (n_states p))).
  - split; [apply repeat_length|]. intros j row H. apply nth_error_In, repeat_spec in H. subst row. apply repeat_length.
  - intros e H. apply filter_In in H. destruct H as [H _]. destruct (Z4 _ _ _ _ _ H) as (j & _ & J1 & J2 & _). split; eapply P; eauto.
  - exists (mkE t f u v). cbn [e_from e_to]. split.
    + apply filter_In. split; [eapply Y4; eauto|]. cbn [e_time]. apply Z.eqb_eq. exact E.
    + assert (0 <= f)%Z by (eapply P; eauto). assert (0 <= u)%Z by (eapply P; eauto). lia.
Qed.
