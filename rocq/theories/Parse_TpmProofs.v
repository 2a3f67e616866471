(** * Proofs about counts, probabilities and relabelling in the parsing helpers. *)

From Coq Require Import List ZArith QArith Bool Lia Lqa Arith.
From Verif Require Import Prelude PreludeFacts SpecBase SpecBaseFacts Parse_Model Parse_Spec Parse_Proofs Parse_DurProofs.
Import ListNotations.

Set Implicit Arguments.

(** ** Reading and writing nested arrays *)

Definition get2 {A} (m : list (list A)) (k : nat * nat) : option A :=
  match nth_error m (fst k) with Some r => nth_error r (snd k) | None => None end.
Definition get3 {A} (m : list (list (list A))) (k : nat * nat * nat) : option A :=
  match nth_error m (fst (fst k)) with Some r => get2 r (snd (fst k), snd k) | None => None end.
Definition get4 {A} (m : list (list (list (list A)))) (k : nat * nat * nat * nat) : option A :=
  match nth_error m (fst (fst (fst k))) with Some r => get3 r (snd (fst (fst k)), snd (fst k), snd k) | None => None end.

Lemma upd_ok : forall A i (f : A -> result A) l l', upd i f l = Ok l' ->
  exists x y, nth_error l i = Some x /\ f x = Ok y /\ nth_error l' i = Some y /\ length l' = length l /\
    (forall j, j <> i -> nth_error l' j = nth_error l j).
Proof.
  induction i as [|i IH]; intros f [|x l] l' H; simpl in H; try discriminate.
  - destruct (f x) as [y|] eqn:E; simpl in H; [|discriminate]. injection H as <-.
    exists x, y. repeat split; auto. intros [|j] Hj; [congruence|reflexivity].
  - destruct (upd i f l) as [t'|] eqn:E; simpl in H; [|discriminate]. injection H as <-.
    destruct (IH f l t' E) as (a & b & H1 & H2 & H3 & H4 & H5). exists a, b. simpl. repeat split; auto.
    intros [|j] Hj; [reflexivity|]. simpl. apply H5. congruence.
Qed.

Lemma upd_total : forall A i (f : A -> result A) l x y, nth_error l i = Some x -> f x = Ok y ->
  exists l', upd i f l = Ok l'.
Proof.
  induction i as [|i IH]; intros f [|a l] x y H Hf; simpl in *; try discriminate.
  - injection H as ->. rewrite Hf. simpl. eauto.
  - destruct (IH f l x y H Hf) as [l' ->]. simpl. eauto.
Qed.

Lemma upd_err : forall A i (f : A -> result A) l, nth_error l i = None -> upd i f l = Err IndexError.
Proof.
  induction i as [|i IH]; intros f [|a l] H; simpl in *; try discriminate; auto. rewrite IH by auto. reflexivity.
Qed.

(** An array seen through its keys. *)
Definition keyed {K M : Type} (get : M -> K -> option Q) (set : K -> Q -> M -> result M) : Prop :=
  (forall k v m, get m k <> None -> exists m', set k v m = Ok m') /\
  (forall k v m, get m k = None -> set k v m = Err IndexError) /\
  (forall k v m m', set k v m = Ok m' -> get m' k = Some v) /\
  (forall k k' v m m', set k v m = Ok m' -> k' <> k -> get m' k' = get m k').

Lemma keyed1 : keyed (@nth_error Q) (@set1 Q).
Proof.
  unfold set1. split; [|split; [|split]].
  - intros k v m H. destruct (nth_error m k) eqn:E; [|congruence]. eapply upd_total; eauto.
  - intros. apply upd_err; auto.
  - intros k v m m' H. apply upd_ok in H. destruct H as (x & y & _ & H & H' & _). congruence.
  - intros k k' v m m' H Hk. apply upd_ok in H. destruct H as (x & y & _ & _ & _ & _ & H). auto.
Qed.

Lemma upd_err_in : forall A i (f : A -> result A) l x, nth_error l i = Some x -> f x = Err IndexError -> upd i f l = Err IndexError.
Proof.
  induction i as [|i IH]; intros f [|a l] x H Hf; simpl in *; try discriminate.
  - injection H as ->. rewrite Hf. reflexivity.
  - rewrite (IH f l x); auto.
Qed.

Lemma keyed_step : forall K M (get : M -> K -> option Q) set, keyed get set ->
  @keyed (nat * K) (list M) (fun m k => match nth_error m (fst k) with Some r => get r (snd k) | None => None end)
    (fun k v m => upd (fst k) (set (snd k) v) m).
Proof.
  intros K M get set (K1 & K2 & K3 & K4). split; [|split; [|split]].
  - intros [i k] v m H; simpl in *. destruct (nth_error m i) as [r|] eqn:E; [|congruence].
    destruct (K1 k v r H) as [r' Hr]. eapply upd_total; eauto.
  - intros [i k] v m H; simpl in *. destruct (nth_error m i) as [r|] eqn:E; [|apply upd_err; auto].
    eapply upd_err_in; eauto.
  - intros [i k] v m m' H; simpl in *. apply upd_ok in H. destruct H as (x & y & H1 & H2 & H3 & _). rewrite H3.
    eapply K3; eauto.
  - intros [i k] [i' k'] v m m' H Hk; simpl in *. apply upd_ok in H. destruct H as (x & y & H1 & H2 & H3 & H4 & H5).
    destruct (Nat.eq_dec i' i) as [->|Hi].
    + rewrite H3, H1. eapply K4; eauto. congruence.
    + rewrite H5 by auto. reflexivity.
Qed.

Lemma keyed_iso : forall K K' M (get : M -> K -> option Q) set (get' : M -> K' -> option Q) set' (f : K' -> K),
  keyed get set -> (forall k k', f k = f k' -> k = k') -> (forall m k, get' m k = get m (f k)) ->
  (forall k v m, set' k v m = set (f k) v m) -> keyed get' set'.
Proof.
  intros K K' M get set get' set' f (K1 & K2 & K3 & K4) Hf Hg Hs. split; [|split; [|split]]; intros; rewrite ?Hg, ?Hs in *.
  - apply K1; auto.
  - apply K2; auto.
  - eapply K3; eauto.
  - eapply K4; eauto; intro E; apply Hf in E; congruence.
Qed.

Lemma keyed2 : keyed (@get2 Q) (@set2 Q).
Proof. apply (keyed_iso _ _ (fun k => k) (keyed_step keyed1)); auto. Qed.

Lemma keyed3 : keyed (@get3 Q) (@set3 Q).
Proof.
  apply (keyed_iso _ _ (fun k : nat * nat * nat => (fst (fst k), (snd (fst k), snd k))) (keyed_step keyed2)); auto.
  intros [[a b] c] [[a' b'] c'] H; simpl in H; congruence.
Qed.

Lemma keyed4 : keyed (@get4 Q) (@set4 Q).
Proof.
  apply (keyed_iso _ _ (fun k : nat * nat * nat * nat => (fst (fst (fst k)), (snd (fst (fst k)), snd (fst k), snd k))) (keyed_step keyed3)); auto.
  intros [[[a b] c] e] [[[a' b'] c'] e'] H; simpl in H; congruence.
Qed.

Lemma keyed_none : forall K M (get : M -> K -> option Q) set k v m m' k', keyed get set ->
  (forall x y : K, {x = y} + {x <> y}) ->
  set k v m = Ok m' -> (get m' k' = None <-> get m k' = None).
Proof.
  intros K M get set k v m m' k' (K1 & K2 & K3 & K4) dec H. destruct (dec k' k) as [->|Hk].
  - split; intro E.
    + rewrite (K3 _ _ _ _ H) in E. discriminate.
    + rewrite (K2 k v m E) in H. discriminate.
  - rewrite (K4 _ _ _ _ _ H Hk). tauto.
Qed.

Section Assign.
  Variables (K M : Type) (get : M -> K -> option Q) (set : K -> Q -> M -> result M).
  Hypothesis HK : keyed get set.
  Hypothesis dec : forall x y : K, {x = y} + {x <> y}.

  Lemma assign_spec : forall kvs m, NoDup (map fst kvs) -> (forall k c, In (k, c) kvs -> get m k <> None) ->
    exists m', assign set kvs m = Ok m' /\
      (forall k c, In (k, c) kvs -> get m' k = Some (inject_Z (Z.of_nat c))) /\
      (forall k, ~ In k (map fst kvs) -> get m' k = get m k).
  Proof.
    destruct HK as (K1 & K2 & K3 & K4).
    induction kvs as [|[k c] kvs IH]; intros m Hnd Hin; simpl.
    - exists m. repeat split; auto. intros k c [].
    - inversion Hnd as [|? ? Hni Hnd']; subst.
      destruct (K1 k (inject_Z (Z.of_nat c)) m) as [m1 Hm1]; [eapply Hin; left; reflexivity|].
      rewrite Hm1. simpl.
      destruct (IH m1 Hnd') as (m' & Hm' & H1 & H2).
      { intros k' c' Hk' E. apply (@keyed_none _ _ get set _ _ _ _ k' HK dec Hm1) in E. revert E. eapply Hin. right; eauto. }
      exists m'. split; auto. split.
      + intros k' c' [E|Hk'].
        * injection E as <- <-. rewrite H2 by auto. eapply K3; eauto.
        * apply H1; auto.
      + intros k' Hk'. rewrite H2 by tauto. eapply K4; eauto.
  Qed.

  Lemma assign_err : forall kvs m, (exists k c, In (k, c) kvs /\ get m k = None) ->
    assign set kvs m = Err IndexError.
  Proof.
    destruct HK as (K1 & K2 & K3 & K4).
    induction kvs as [|[k c] kvs IH]; intros m (k' & c' & Hin & Hn); simpl; [destruct Hin|].
    destruct (set k (inject_Z (Z.of_nat c)) m) as [m1|e] eqn:E; simpl.
    - apply IH. destruct Hin as [Heq|Hin].
      + injection Heq as -> ->. rewrite (K2 k' _ m Hn) in E. discriminate.
      + exists k', c'. split; auto. apply (@keyed_none _ _ get set _ _ _ _ k' HK dec E); auto.
    - destruct (get m k) eqn:G; [destruct (K1 k (inject_Z (Z.of_nat c)) m) as [? G']; congruence|].
      rewrite (K2 _ _ _ G) in E. congruence.
  Qed.

  Variable cmp : K -> K -> comparison.
  Hypothesis ord : total_order cmp.

  Definition cntq (k : K) (l : list K) : Q := inject_Z (Z.of_nat (count_of cmp k l)).

  Lemma count_of_notin : forall k l, ~ In k l -> count_of cmp k l = 0%nat.
  Proof.
    intros k l H. unfold count_of. induction l as [|x l IH]; simpl; auto.
    destruct (is_eq cmp k x) eqn:E; [apply (is_eq_iff ord) in E; exfalso; apply H; left; auto|].
    apply IH. intro; apply H; right; auto.
  Qed.

  Lemma assign_counts : forall l m, (forall k, In k l -> get m k = Some 0) ->
    exists m', assign set (uniq_counts cmp l) m = Ok m' /\
      (forall k, get m k = Some 0 -> get m' k = Some (cntq k l)) /\
      (forall k, ~ In k l -> get m' k = get m k).
  Proof.
    intros l m Hl.
    assert (Hfst : map fst (uniq_counts cmp l) = uniq cmp l).
    { unfold uniq_counts. rewrite map_map. simpl. apply map_id. }
    assert (Hin : forall k c, In (k, c) (uniq_counts cmp l) <-> In k l /\ c = count_of cmp k l).
    { intros k c. unfold uniq_counts. rewrite in_map_iff. split.
      - intros (x & E & Hx). injection E as <- <-. apply uniq_in in Hx; auto.
      - intros [H ->]. exists k. split; auto. apply uniq_in; auto. }
    destruct (@assign_spec (uniq_counts cmp l) m) as (m' & Hm' & H1 & H2).
    - rewrite Hfst. apply uniq_nodup; auto.
    - intros k c H. apply Hin in H. rewrite Hl by tauto. discriminate.
    - exists m'. split; auto.
      assert (H3 : forall k, ~ In k l -> get m' k = get m k).
      { intros k Hk. apply H2. rewrite Hfst. rewrite uniq_in; auto. }
      split; auto. intros k Hk.
      destruct (in_dec dec k l) as [Hi|Hi].
      + apply H1. apply Hin; auto.
      + rewrite H3, Hk by auto. unfold cntq. rewrite count_of_notin by auto. reflexivity.
  Qed.
End Assign.

(** Shapes. *)
Definition shape2 {A} (n m : nat) (a : list (list A)) : Prop := length a = n /\ Forall (fun r => length r = m) a.

Lemma get2_shape : forall A (a : list (list A)) n m i j, shape2 n m a -> (get2 a (i, j) <> None <-> (i < n /\ j < m)%nat).
Proof.
  intros A a n m i j [H1 H2]. unfold get2; simpl. destruct (nth_error a i) as [r|] eqn:E.
  - assert (length r = m) by (rewrite Forall_forall in H2; apply H2; eapply nth_error_In; eauto).
    assert (i < length a)%nat by (apply nth_error_Some; congruence).
    rewrite nth_error_Some. lia.
  - apply nth_error_None in E. split; [congruence|lia].
Qed.

Lemma zeros2_shape : forall n m, shape2 n m (zeros2 n m).
Proof.
  intros n m. unfold zeros2, zeros1. split; [apply repeat_length|]. apply Forall_forall. intros r Hr.
  apply repeat_spec in Hr. subst. apply repeat_length.
Qed.

Lemma nth_error_repeat : forall A (x : A) n i, (i < n)%nat -> nth_error (repeat x n) i = Some x.
Proof. induction n; intros [|i] H; simpl; try lia; auto. apply IHn; lia. Qed.

Lemma zeros2_get : forall n m i j, (i < n)%nat -> (j < m)%nat -> get2 (zeros2 n m) (i, j) = Some 0.
Proof.
  intros n m i j Hi Hj. unfold get2, zeros2, zeros1; simpl. rewrite nth_error_repeat by auto. apply nth_error_repeat; auto.
Qed.

Lemma set2_shape : forall n m k v (a a' : list (list Q)), shape2 n m a -> set2 k v a = Ok a' -> shape2 n m a'.
Proof.
  intros n m k v a a' [H1 H2] H. unfold set2 in H. apply upd_ok in H.
  destruct H as (x & y & Hx & Hy & Hy' & Hl & Ho). split; [lia|].
  apply Forall_forall. intros r Hr. apply In_nth_error in Hr. destruct Hr as [i Hi].
  rewrite Forall_forall in H2. destruct (Nat.eq_dec i (fst k)) as [->|Hne].
  - rewrite Hy' in Hi. injection Hi as <-. unfold set1 in Hy. apply upd_ok in Hy.
    destruct Hy as (_ & _ & _ & _ & _ & Hl' & _). rewrite Hl'. apply H2. eapply nth_error_In; eauto.
  - rewrite Ho in Hi by auto. apply H2. eapply nth_error_In; eauto.
Qed.

Lemma assign2_shape : forall n m kvs (a a' : list (list Q)), shape2 n m a -> assign set2 kvs a = Ok a' -> shape2 n m a'.
Proof.
  induction kvs as [|[k c] kvs IH]; intros a a' Ha H; simpl in H; [congruence|].
  destruct (set2 k _ a) as [a1|] eqn:E; simpl in H; [|discriminate]. eapply IH; [|exact H]. eapply set2_shape; eauto.
Qed.

Definition dec2 : forall x y : nat * nat, {x = y} + {x <> y}.
Proof. decide equality; apply Nat.eq_dec. Defined.
Definition dec3 : forall x y : nat * nat * nat, {x = y} + {x <> y}.
Proof. decide equality; try apply Nat.eq_dec. apply dec2. Defined.
Definition dec4 : forall x y : nat * nat * nat * nat, {x = y} + {x <> y}.
Proof. decide equality; try apply Nat.eq_dec. apply dec3. Defined.

Lemma order2 : total_order cmp2.
Proof. apply pair_order; apply nat_order. Qed.
Lemma order3 : total_order cmp3.
Proof. apply pair_order; [apply order2|apply nat_order]. Qed.
Lemma order4 : total_order cmp4.
Proof. apply pair_order; [apply order3|apply nat_order]. Qed.

(** ** Counting *)

Definition qn (n : nat) : Q := inject_Z (Z.of_nat n).

Lemma qn_add : forall a b, qn (a + b) == qn a + qn b.
Proof. intros. unfold qn. rewrite Nat2Z.inj_add, inject_Z_plus. reflexivity. Qed.

Lemma qn_nonneg : forall a, 0 <= qn a.
Proof. intros. unfold qn. change 0 with (inject_Z 0). rewrite <- Zle_Qle. lia. Qed.

Lemma qn_zero : forall a, qn a == 0 <-> a = 0%nat.
Proof.
  intros a. unfold qn. split; intro H.
  - change 0 with (inject_Z 0) in H. rewrite inject_Z_injective in H. lia.
  - subst; reflexivity.
Qed.

Lemma qn_pos : forall a, 0 < qn a <-> (0 < a)%nat.
Proof. intros a. unfold qn. change 0 with (inject_Z 0). rewrite <- Zlt_Qlt. lia. Qed.

Lemma qsum_qn : forall A (f : A -> nat) l, qsum (map (fun x => qn (f x)) l) == qn (nsum (map f l)).
Proof. induction l as [|x l IH]; simpl; [reflexivity|]. rewrite qn_add, IH. reflexivity. Qed.

(** Splitting a count along the values of a function. *)
Lemma split_count : forall A (g : A -> bool) (h : A -> nat) n l, (forall x, In x l -> (h x < n)%nat) ->
  nsum (map (fun b => length (filter (fun x => g x && (h x =? b)%nat) l)) (seq 0 n)) = length (filter g l).
Proof.
  intros A g h n l. induction l as [|x l IH]; intro H.
  - simpl. induction (seq 0 n); simpl; auto.
  - assert (Hx : (h x < n)%nat) by (apply H; left; auto).
    simpl. destruct (g x) eqn:G; simpl.
    + rewrite (nsum_map_ext _ _ (fun b => (if Nat.eqb b (h x) then 1 else 0) + length (filter (fun x => g x && (h x =? b)%nat) l))%nat).
      * rewrite nsum_map_add, nsum_indicator, IH by (intros; apply H; right; auto).
        replace (0 <=? h x)%nat with true by (symmetry; apply Nat.leb_le; lia).
        replace (h x <? 0 + n)%nat with true by (symmetry; apply Nat.ltb_lt; lia). reflexivity.
      * intros b _. rewrite (Nat.eqb_sym (h x) b). destruct (b =? h x)%nat; reflexivity.
    + apply IH. intros; apply H; right; auto.
Qed.

Lemma filter_ext_length : forall A (f g : A -> bool) l, (forall x, In x l -> f x = g x) ->
  length (filter f l) = length (filter g l).
Proof.
  induction l as [|x l IH]; intro H; simpl; auto. rewrite (H x) by (left; auto).
  destruct (g x); simpl; rewrite IH by (intros; apply H; right; auto); auto.
Qed.

Lemma filter_map_length : forall A B (f : A -> B) (g : B -> bool) l,
  length (filter g (map f l)) = length (filter (fun x => g (f x)) l).
Proof. induction l as [|x l IH]; simpl; auto. destruct (g (f x)); simpl; rewrite IH; auto. Qed.

(** Columns as maps over the rows. *)
Lemma column_map : forall A (t : table A) (d : A) i, rectangular t = true -> (i < width t)%nat ->
  column t i = map (fun r => nth i r d) (rows t).
Proof.
  intros A [n rs] d i Hr Hi; unfold rectangular, column in *; simpl in *.
  induction rs as [|r rs IH]; simpl in *; auto.
  apply andb_true_iff in Hr. destruct Hr as [Hr1 Hr2]. apply Nat.eqb_eq in Hr1.
  rewrite (nth_error_nth' r d) by lia. simpl. rewrite IH by auto. reflexivity.
Qed.

Lemma combine_map : forall A B C (f : A -> B) (g : A -> C) l, combine (map f l) (map g l) = map (fun x => (f x, g x)) l.
Proof. induction l; simpl; auto. rewrite IHl; auto. Qed.

Lemma map2_map : forall A B C D (h : B -> C -> D) (f : A -> B) (g : A -> C) l,
  map2 h (map f l) (map g l) = map (fun x => h (f x) (g x)) l.
Proof. induction l; simpl; auto. rewrite IHl; auto. Qed.

Lemma compress_mapmap : forall A B (g : A -> bool) (f : A -> B) l, compress (map g l) (map f l) = map f (filter g l).
Proof. induction l as [|x l IH]; simpl; auto. destruct (g x); simpl; rewrite IH; auto. Qed.

Lemma row_in_length : forall A (t : table A) r, rectangular t = true -> In r (rows t) -> length r = width t.
Proof. intros A t r H Hr. unfold rectangular in H. rewrite forallb_forall in H. apply Nat.eqb_eq. auto. Qed.

Lemma is_at_nth : forall i s r, (i < length r)%nat -> is_at i s r = (nth i r 0 =? s)%nat.
Proof. intros i s r H. unfold is_at. rewrite (nth_error_nth' r 0%nat) by auto. reflexivity. Qed.

(** ** Matrices of counts *)

Lemma nth_list_ext : forall A (l l' : list A), (forall i, nth_error l i = nth_error l' i) -> l = l'.
Proof.
  induction l as [|x l IH]; intros [|y l'] H; auto.
  - specialize (H O); discriminate.
  - specialize (H O); discriminate.
  - pose proof (H O) as H0. simpl in H0. injection H0 as ->. f_equal. apply IH. intro i. apply (H (S i)).
Qed.

Lemma row_from_get : forall (m : list (list Q)) n a row f, shape2 n n m -> nth_error m a = Some row ->
  (forall b, (b < n)%nat -> get2 m (a, b) = Some (f b)) -> row = map f (seq 0 n).
Proof.
  intros m n a row f [H1 H2] Ha Hf. apply nth_list_ext. intro b. rewrite nth_error_map.
  assert (Hl : length row = n) by (rewrite Forall_forall in H2; apply H2; eapply nth_error_In; eauto).
  destruct (lt_dec b n) as [Hb|Hb].
  - specialize (Hf b Hb). unfold get2 in Hf; simpl in Hf. rewrite Ha in Hf. rewrite Hf.
    rewrite (nth_error_nth' _ 0%nat) by (rewrite seq_length; auto). rewrite seq_nth by auto. reflexivity.
  - transitivity (@None Q); [apply nth_error_None; lia|].
    replace (nth_error (seq 0 n) b) with (@None nat); [reflexivity|]. symmetry. apply nth_error_None. rewrite seq_length. lia.
Qed.

Definition both (i j a b : nat) (r : list nat) : bool := is_at i a r && is_at j b r.

Lemma count_matrix_spec : forall t n i j, rectangular t = true -> (i < width t)%nat -> (j < width t)%nat ->
  (forall r x, In r (rows t) -> In x r -> (x < n)%nat) ->
  exists m, count_matrix n (column t i) (column t j) = Ok m /\ shape2 n n m /\
    (forall a row, nth_error m a = Some row -> row = map (fun b => persons_with (both i j a b) (rows t)) (seq 0 n)).
Proof.
  intros t n i j Hr Hi Hj Hb. unfold count_matrix.
  rewrite (column_map t 0%nat Hr Hi), (column_map t 0%nat Hr Hj), combine_map.
  set (l := map (fun r => (nth i r 0%nat, nth j r 0%nat)) (rows t)).
  destruct (@assign_counts _ _ _ _ keyed2 dec2 cmp2 order2 l (zeros2 n n)) as (m & Hm & H1 & _).
  { intros [a b] Hin. unfold l in Hin. apply in_map_iff in Hin. destruct Hin as (r & E & Hin). injection E as <- <-.
    pose proof (row_in_length t r Hr Hin). apply zeros2_get; eapply Hb; eauto; apply nth_In; lia. }
  exists m. split; auto.
  assert (Hs : shape2 n n m) by (eapply assign2_shape; eauto; apply zeros2_shape). split; auto.
  intros a row Ha. apply (row_from_get a _ Hs Ha). intros b Hbn.
  assert (Han : (a < n)%nat) by (destruct Hs as [Hs _]; rewrite <- Hs; apply nth_error_Some; congruence).
  rewrite (H1 (a, b)) by (apply zeros2_get; auto). f_equal. unfold cntq, persons_with. f_equal. f_equal.
  unfold count_of, l. rewrite filter_map_length. apply filter_ext_length. intros r Hin.
  pose proof (row_in_length t r Hr Hin). unfold both. rewrite !is_at_nth by lia.
  unfold is_eq, cmp2, cmp_pair; simpl.
  destruct (Nat.compare_spec a (nth i r 0%nat)), (Nat.compare_spec b (nth j r 0%nat));
    destruct (Nat.eqb_spec (nth i r 0%nat) a), (Nat.eqb_spec (nth j r 0%nat) b); simpl; auto; lia.
Qed.

(** A state out of range is an IndexError. *)
Lemma count_matrix_err : forall t n i j, rectangular t = true -> (i < width t)%nat -> (j < width t)%nat ->
  (exists r, In r (rows t) /\ (n <= nth j r 0)%nat) -> count_matrix n (column t i) (column t j) = Err IndexError.
Proof.
  intros t n i j Hr Hi Hj (r & Hin & Hn). unfold count_matrix.
  rewrite (column_map t 0%nat Hr Hi), (column_map t 0%nat Hr Hj), combine_map.
  set (l := map (fun r => (nth i r 0%nat, nth j r 0%nat)) (rows t)).
  apply (assign_err keyed2 dec2). exists (nth i r 0%nat, nth j r 0%nat). eexists. split.
  - unfold uniq_counts. apply in_map_iff. eexists. split; [reflexivity|].
    apply uniq_in; [apply order2|]. unfold l. apply in_map_iff. exists r; auto.
  - destruct (get2 (zeros2 n n) (nth i r 0%nat, nth j r 0%nat)) eqn:E; auto.
    assert (N : get2 (zeros2 n n) (nth i r 0%nat, nth j r 0%nat) <> None) by congruence.
    apply (get2_shape _ _ (zeros2_shape n n)) in N. lia.
Qed.

Lemma both_sum : forall t n i j a, rectangular t = true -> (i < width t)%nat -> (j < width t)%nat ->
  (forall r x, In r (rows t) -> In x r -> (x < n)%nat) ->
  qsum (map (fun b => persons_with (both i j a b) (rows t)) (seq 0 n)) == persons_with (is_at i a) (rows t).
Proof.
  intros t n i j a Hr Hi Hj Hb. transitivity (qn (nsum (map (fun b => length (filter (both i j a b) (rows t))) (seq 0 n)))); [apply qsum_qn|].
  change (persons_with _ _) with (qn (length (filter (is_at i a) (rows t)))).
  rewrite <- (@split_count _ (is_at i a) (fun r => nth j r 0%nat) n (rows t)).
  - erewrite nsum_map_ext; [reflexivity|]. intros b _. apply filter_ext_length. intros r Hin. unfold both.
    pose proof (row_in_length t r Hr Hin). rewrite (@is_at_nth j) by lia. reflexivity.
  - intros r Hin. eapply Hb; eauto. apply nth_In. rewrite (row_in_length t r Hr Hin). auto.
Qed.

(** ** Normalisation *)

Lemma Qeq_bool_neq' : forall a b, Qeq_bool a b = false <-> ~ a == b.
Proof.
  intros a b. split; intro H; [apply Qeq_bool_neq; auto|].
  destruct (Qeq_bool a b) eqn:E; auto. apply Qeq_bool_iff in E. tauto.
Qed.

Lemma set1_row : forall i (v : Q) l, (i < length l)%nat -> exists l', set1 i v l = Ok l' /\ length l' = length l /\
  nth_error l' i = Some v /\ (forall j, j <> i -> nth_error l' j = nth_error l j).
Proof.
  intros i v l Hi. unfold set1. destruct (nth_error l i) as [x|] eqn:E; [|apply nth_error_None in E; lia].
  destruct (upd_total i (fun _ => Ok v) l E eq_refl) as [l' Hl']. exists l'.
  destruct (upd_ok _ _ _ Hl') as (a & b & _ & Hb & H1 & H2 & H3). injection Hb as <-. auto.
Qed.

(** A row of zeros with a one at [i]. *)
Lemma unit_row : forall (i : nat) (l l' : list Q), (forall j x, j <> i -> nth_error l j = Some x -> x == 0) ->
  length l' = length l -> nth_error l' i = Some 1 -> (forall j, j <> i -> nth_error l' j = nth_error l j) ->
  is_pdf l' /\ forall j x, nth_error l' j = Some x -> x == if (j =? i)%nat then 1 else 0.
Proof.
  intros i l l' Hz Hl Hi Ho.
  assert (V : forall j x, nth_error l' j = Some x -> x == if (j =? i)%nat then 1 else 0).
  { intros j x Hx. destruct (Nat.eqb_spec j i) as [->|Hne].
    - rewrite Hi in Hx. injection Hx as <-. reflexivity.
    - rewrite Ho in Hx by auto. eapply Hz; eauto. }
  split; auto. split.
  - intros j x Hx. rewrite (V j x Hx). destruct (j =? i)%nat; lra.
  - rewrite total_qsum. assert (Hlt : (i < length l')%nat) by (apply nth_error_Some; congruence).
    assert (G : forall (l : list Q) i, (i < length l)%nat -> (forall j x, nth_error l j = Some x -> x == if (j =? i)%nat then 1 else 0) -> qsum l == 1).
    { clear. induction l as [|y l IH]; intros i Hi V; simpl in Hi; [lia|]. simpl. destruct i as [|i].
      - rewrite (V O y eq_refl). simpl.
        rewrite qsum_zero; [ring|]. apply Forall_forall. intros x Hx. apply In_nth_error in Hx. destruct Hx as [j Hj].
        rewrite (V (S j) x Hj). reflexivity.
      - rewrite (V O y eq_refl). simpl. rewrite (IH i); [ring|lia|]. intros j x Hx. apply (V (S j) x Hx). }
    eapply G; eauto.
Qed.

Lemma nonneg_sum_zero : forall l, Forall (fun x => 0 <= x) l -> qsum l == 0 -> Forall (fun x => x == 0) l.
Proof.
  induction 1 as [|x l Hx Hl IH]; simpl; intro H; constructor.
  - pose proof (qsum_nonneg _ Hl). lra.
  - apply IH. pose proof (qsum_nonneg _ Hl). lra.
Qed.

Lemma normalise_row_pos : forall row, Forall (fun x => 0 <= x) row -> ~ qsum row == 0 ->
  normalise_row row = map (fun x => x / qsum row) row /\ is_pdf (normalise_row row).
Proof.
  intros row Hp Hs. assert (E : normalise_row row = map (fun x => x / qsum row) row).
  { unfold normalise_row, nan_div. apply Qeq_bool_neq' in Hs. rewrite Hs. reflexivity. }
  split; auto. rewrite E. pose proof (qsum_nonneg _ Hp) as Hn. split.
  - apply nonneg_Forall. apply Forall_forall. intros y Hy. apply in_map_iff in Hy. destruct Hy as (x & <- & Hx).
    rewrite Forall_forall in Hp. specialize (Hp x Hx). apply Qle_shift_div_l; [|lra].
    destruct (Qlt_le_dec 0 (qsum row)); auto. exfalso. apply Hs. lra.
  - rewrite total_qsum, qsum_map_div. field. auto.
Qed.

(** One normalised row, at position [i] of a square matrix. *)
Lemma stay_normalised : forall i row, Forall (fun x => 0 <= x) row -> (i < length row)%nat ->
  exists r, stay_row i (normalise_row row) = Ok r /\ length r = length row /\ is_pdf r /\
    (forall b q c, nth_error r b = Some q -> nth_error row b = Some c ->
      (~ qsum row == 0 -> q == c / qsum row) /\ (qsum row == 0 -> q == if (b =? i)%nat then 1 else 0)).
Proof.
  intros i row Hp Hi. unfold stay_row. destruct (Qeq_dec (qsum row) 0) as [Hz|Hnz].
  - assert (En : normalise_row row = map (fun _ => 0) row).
    { unfold normalise_row, nan_div. apply Qeq_bool_iff in Hz. rewrite Hz. reflexivity. }
    assert (Es : Qeq_bool (qsum (normalise_row row)) 0 = true).
    { apply Qeq_bool_iff. rewrite En. apply qsum_zero. apply Forall_forall. intros x Hx. apply in_map_iff in Hx.
      destruct Hx as (? & <- & _). reflexivity. }
    rewrite Es, En. destruct (@set1_row i 1 (map (fun _ => 0) row)) as (l' & H1 & H2 & H3 & H4); [rewrite map_length; auto|].
    exists l'. rewrite map_length in H2. split; auto. split; auto.
    destruct (@unit_row i (map (fun _ => 0) row) l') as [U1 U2]; auto.
    + intros j x _ Hx. rewrite nth_error_map in Hx. destruct (nth_error row j); simpl in Hx; [injection Hx as <-; reflexivity|discriminate].
    + rewrite map_length; auto.
    + split; auto. intros b q c Hq Hc. split; [tauto|]. intros _. apply U2; auto.
  - destruct (normalise_row_pos Hp Hnz) as [En Hpdf].
    assert (Es : Qeq_bool (qsum (normalise_row row)) 0 = false).
    { apply Qeq_bool_neq'. destruct Hpdf as [_ Ht]. rewrite total_qsum in Ht. rewrite Ht. lra. }
    rewrite Es. eexists. split; [reflexivity|]. rewrite En at 1. rewrite map_length. split; auto. split; auto.
    intros b q c Hq Hc. split; [intros _|tauto]. rewrite En, nth_error_map, Hc in Hq. simpl in Hq. injection Hq as <-. reflexivity.
Qed.

Lemma stay_rows_spec : forall (m : list (list Q)) i0 n,
  Forall (fun r => length r = n) m -> Forall (fun r => Forall (fun x => 0 <= x) r) m -> (i0 + length m <= n)%nat ->
  exists m', stay_rows i0 (map normalise_row m) = Ok m' /\ length m' = length m /\
    (forall a r row, nth_error m' a = Some r -> nth_error m a = Some row ->
      length r = n /\ is_pdf r /\
      (forall b q c, nth_error r b = Some q -> nth_error row b = Some c ->
        (~ qsum row == 0 -> q == c / qsum row) /\ (qsum row == 0 -> q == if (b =? i0 + a)%nat then 1 else 0))).
Proof.
  induction m as [|row m IH]; intros i0 n Hl Hp Hn; simpl.
  - exists []. repeat split; auto; destruct a; discriminate.
  - inversion Hl as [|? ? Hl1 Hl2]; inversion Hp as [|? ? Hp1 Hp2]; subst. simpl in Hn.
    destruct (@stay_normalised i0 row) as (r & Hr & Lr & Pr & Vr); auto; [lia|].
    destruct (IH (S i0) (length row)) as (m' & Hm' & Lm' & Vm'); auto; [lia|].
    rewrite Hr. simpl. rewrite Hm'. simpl. exists (r :: m'). split; auto. split; [simpl; lia|].
    intros [|a] r' row' Ha Hb; simpl in Ha, Hb.
    + injection Ha as <-. injection Hb as <-. rewrite Nat.add_0_r. auto.
    + destruct (Vm' a r' row' Ha Hb) as (V1 & V2 & V3). split; auto. split; auto.
      replace (i0 + S a)%nat with (S i0 + a)%nat by lia. auto.
Qed.

Lemma normalise_spec : forall m n, shape2 n n m -> Forall (fun r => Forall (fun x => 0 <= x) r) m ->
  exists m', normalise m = Ok m' /\ length m' = n /\
    (forall a r row, nth_error m' a = Some r -> nth_error m a = Some row ->
      length r = n /\ is_pdf r /\
      (forall b q c, nth_error r b = Some q -> nth_error row b = Some c ->
        (~ qsum row == 0 -> q == c / qsum row) /\ (qsum row == 0 -> q == if (b =? a)%nat then 1 else 0))).
Proof.
  intros m n [H1 H2] Hp. unfold normalise. destruct (@stay_rows_spec m 0 n) as (m' & E & L & V); auto; [lia|].
  exists m'. split; auto. split; [lia|]. exact V.
Qed.

(** ** states_to_tpms *)

Definition valid_states (n : nat) (t : table nat) : Prop := forall r x, In r (rows t) -> In x r -> (x < n)%nat.

Lemma count_matrices_spec : forall t n m i0 o, rectangular t = true -> valid_states n t ->
  (o < width t)%nat -> (i0 + m <= width t)%nat ->
  exists ms, count_matrices n (column t o) (map (column t) (seq i0 m)) = Ok ms /\ length ms = m /\
    (forall k c, nth_error ms k = Some c ->
       count_matrix n (column t (match k with O => o | S j => i0 + j end)%nat) (column t (i0 + k)) = Ok c).
Proof.
  induction m as [|m IH]; intros i0 o Hr Hv Ho Hm; simpl.
  - exists []. repeat split; auto. intros [|k] c H; discriminate.
  - destruct (@count_matrix_spec t n o i0 Hr Ho ltac:(lia) Hv) as (c0 & E0 & _).
    rewrite E0. simpl. destruct (IH (S i0) i0 Hr Hv) as (ms & E & L & V); try lia.
    rewrite E. simpl. exists (c0 :: ms). repeat split; [simpl; lia|].
    intros [|k] c H; simpl in H.
    + injection H as <-. rewrite Nat.add_0_r. auto.
    + specialize (V k c H). destruct k; simpl in *; rewrite <- V; f_equal; f_equal; lia.
Qed.

Lemma columns_seq : forall A (t : table A), columns t = map (column t) (seq 0 (width t)).
Proof. reflexivity. Qed.

Definition source (algo : tpm_algo) (n i : nat) : nat :=
  match algo, i with AlgoLast, O => (n - 1)%nat | _, _ => i end.

Lemma nth_last : forall A (l : list A) d, l <> [] -> nth_error l (length l - 1) = Some (last l d).
Proof.
  intros A l d H. destruct (exists_last H) as [l' [x ->]]. rewrite last_last, app_length, nth_error_app2 by (simpl; lia).
  simpl. replace (_ - _)%nat with O by lia. reflexivity.
Qed.

Lemma first_change_spec : forall A algo (l : list A), algo <> AlgoUnknown -> l <> [] ->
  exists l', first_tpm_change algo l = Ok l' /\ length l' = length l /\
    (forall i x, nth_error l' i = Some x -> nth_error l (source algo (length l) i) = Some x).
Proof.
  intros A algo l Ha Hl. destruct l as [|x l]; [congruence|]. destruct algo; [| |congruence].
  - eexists. split; [reflexivity|]. split; [reflexivity|]. intros [|i] y Hy.
    + unfold source. rewrite (nth_last x) by congruence. exact Hy.
    + exact Hy.
  - eexists. split; [reflexivity|]. split; auto.
Qed.

Lemma mapM_nth : forall A B (f : A -> result B) l, (forall x, In x l -> exists y, f x = Ok y) ->
  exists out, mapM f l = Ok out /\ length out = length l /\
    (forall k y, nth_error out k = Some y -> exists x, nth_error l k = Some x /\ f x = Ok y).
Proof.
  intros A B f l H. destruct (mapM_total _ _ _ _ H) as [out Ho]. exists out. split; auto.
  destruct (mapM_ok _ _ _ _ _ Ho) as [L V]. split; auto. intros k y Hy.
  destruct (nth_error l k) as [x|] eqn:E; [|apply nth_error_None in E; assert (k < length out)%nat by (apply nth_error_Some; congruence); lia].
  exists x. split; auto. destruct (V k x E) as (y' & E' & F). congruence.
Qed.

Lemma persons_with_pos : forall A (g : A -> bool) l, True -> 0 <= inject_Z (Z.of_nat (length (filter g l))).
Proof. intros. apply qn_nonneg. Qed.

Lemma normalised_frequencies : forall t n i j c, rectangular t = true -> valid_states n t ->
  (i < width t)%nat -> (j < width t)%nat -> count_matrix n (column t i) (column t j) = Ok c ->
  exists m, normalise c = Ok m /\ frequencies n (rows t) i j m.
Proof.
  intros t n i j c Hr Hv Hi Hj Hc.
  destruct (@count_matrix_spec t n i j Hr Hi Hj Hv) as (c' & E & Hs & Hrows). rewrite Hc in E. injection E as <-.
  destruct (@normalise_spec c n Hs) as (m & Em & Lm & Vm).
  { apply Forall_forall. intros row Hrow. apply In_nth_error in Hrow. destruct Hrow as [a Ha]. rewrite (Hrows a row Ha).
    apply Forall_forall. intros x Hx. apply in_map_iff in Hx. destruct Hx as (b & <- & _). apply qn_nonneg. }
  exists m. split; auto. split; auto. intros a row Ha.
  assert (La : (a < n)%nat) by (rewrite <- Lm; apply nth_error_Some; unfold at_ in Ha; congruence).
  destruct (nth_error c a) as [crow|] eqn:Ec; [|apply nth_error_None in Ec; destruct Hs; lia].
  destruct (Vm a row crow Ha Ec) as (L & P & V). split; auto. split; auto.
  intros b q Hq. assert (Lb : (b < n)%nat) by (rewrite <- L; apply nth_error_Some; unfold at_ in Hq; congruence).
  pose proof (Hrows a crow Ec) as Er.
  assert (Eb : nth_error crow b = Some (persons_with (both i j a b) (rows t))).
  { rewrite Er, nth_error_map, (nth_error_nth' _ 0%nat) by (rewrite seq_length; auto). rewrite seq_nth by auto. reflexivity. }
  destruct (V b q _ Hq Eb) as [V1 V2].
  assert (Es : qsum crow == persons_with (is_at i a) (rows t)) by (rewrite Er; apply both_sum; auto).
  simpl. split; intro H.
  - assert (Hnz : ~ qsum crow == 0) by (rewrite Es; lra). rewrite (V1 Hnz). rewrite Es. reflexivity.
  - apply V2. rewrite Es. auto.
Qed.

Lemma concat_in : forall A (ls : list (list A)) x, In x (concat ls) <-> exists l, In l ls /\ In x l.
Proof.
  intros. rewrite in_concat. split; intros (l & H1 & H2); exists l; auto.
Qed.

Lemma tpms_spec : forall algo labels t n, full (width t) (rows t) -> (0 < width t)%nat -> algo <> AlgoUnknown ->
  (labels = Some n \/ labels = None /\ rows t <> [] /\ n = S (list_max_nat (concat (rows t)))) ->
  (forall p i x, diary (rows t) p i x -> (x < n)%nat) ->
  exists ms, states_to_tpms algo labels t = Ok ms /\ length ms = width t /\
    (forall i m, at_ ms i m -> frequencies n (rows t) (before (width t) (source algo (width t) i)) (source algo (width t) i) m).
Proof.
  intros algo labels t n Hf Hw Ha Hlab Hst. apply rectangular_full in Hf as Hr.
  assert (Hv : valid_states n t).
  { intros r x H1 H2. apply in_at in H1, H2. destruct H1 as [p Hp], H2 as [i Hi]. apply (Hst p i x). exists r; auto. }
  unfold states_to_tpms. rewrite Hr.
  assert (HL := columns_length t).
  destruct (columns t) as [|c cs] eqn:E; [simpl in HL; lia|]. rewrite <- E in *.
  assert (En : (match labels with Some n => Ok n | None => match concat (rows t) with [] => Err ValueError | l => Ok (S (list_max_nat l)) end end) = Ok n).
  { destruct Hlab as [->|(-> & Hne & ->)]; auto.
    destruct (rows t) as [|r rs] eqn:Er; [congruence|].
    assert (Lr : length r = width t) by (apply (row_in_length t); auto; rewrite Er; left; auto).
    destruct r; [simpl in Lr; lia|]. reflexivity. }
  rewrite En. simpl. rewrite last_col by auto. rewrite columns_seq.
  destruct (@count_matrices_spec t n (width t) 0 (width t - 1) Hr Hv) as (cs' & Ec & Lc & Vc); try lia.
  rewrite Ec. simpl.
  destruct (@first_change_spec _ algo cs' Ha) as (cs2 & E2 & L2 & V2); [intro; subst; simpl in Lc; lia|].
  rewrite E2. simpl.
  assert (V3 : forall i cm, nth_error cs2 i = Some cm -> (i < width t)%nat /\ (source algo (width t) i < width t)%nat /\
     count_matrix n (column t (before (width t) (source algo (width t) i))) (column t (source algo (width t) i)) = Ok cm).
  { intros i cm Hcm. assert (i < length cs2)%nat by (apply nth_error_Some; congruence). split; [lia|].
    split; [destruct algo; simpl; try lia; destruct i; lia|].
    specialize (V2 i cm Hcm). rewrite Lc in V2. specialize (Vc _ _ V2). simpl in Vc.
    destruct (source algo (width t) i); auto. }
  destruct (@mapM_nth _ _ normalise cs2) as (ms & Em & Lm & Vm).
  { intros cm Hcm. apply In_nth_error in Hcm. destruct Hcm as [i Hi]. destruct (V3 i cm Hi) as (B1 & B2 & B3).
    destruct (@normalised_frequencies t n (before (width t) (source algo (width t) i)) (source algo (width t) i) cm) as (m & G & _); auto.
    - destruct (source algo (width t) i); simpl; lia.
    - eauto. }
  exists ms. split; auto. split; [lia|].
  intros i m Hm. destruct (Vm i m Hm) as (cm & Hcm & Hn). destruct (V3 i cm Hcm) as (B1 & B2 & B3).
  destruct (@normalised_frequencies t n (before (width t) (source algo (width t) i)) (source algo (width t) i) cm) as (m' & G & F); auto.
  - destruct (source algo (width t) i); simpl; lia.
  - congruence.
Qed.

Lemma tpms_unknown_algo : forall labels t ms, states_to_tpms AlgoUnknown labels t <> Ok ms.
Proof.
  intros labels t ms H. unfold states_to_tpms, bind, first_tpm_change in H.
  repeat match type of H with context [match ?x with _ => _ end] => destruct x; try discriminate H end.
Qed.

Lemma count_matrices_err : forall t n m i0 o, rectangular t = true -> (o < width t)%nat -> (i0 + m <= width t)%nat ->
  (exists j r, (i0 <= j < i0 + m)%nat /\ In r (rows t) /\ (n <= nth j r 0)%nat) ->
  count_matrices n (column t o) (map (column t) (seq i0 m)) = Err IndexError.
Proof.
  induction m as [|m IH]; intros i0 o Hr Ho Hm (j & r & Hj & Hin & Hn); simpl; [lia|].
  destruct (count_matrix n (column t o) (column t i0)) as [c|e] eqn:E; simpl.
  - rewrite (IH (S i0) i0); auto; try lia.
    destruct (Nat.eq_dec j i0) as [->|].
    + rewrite (@count_matrix_err t n o i0) in E; [discriminate|auto|auto|lia|]. exists r; auto.
    + exists j, r. repeat split; auto; lia.
  - (* every failure of count_matrix is an IndexError *)
    assert (G : forall kvs (a : list (list Q)) e, assign set2 kvs a = Err e -> e = IndexError).
    { induction kvs as [|[k cc] kvs IHk]; intros a e' H; simpl in H; [discriminate|].
      destruct (get2 a k) eqn:Eg.
      - destruct keyed2 as (K1 & _). destruct (K1 k (inject_Z (Z.of_nat cc)) a) as [a' Ha']; [congruence|].
        rewrite Ha' in H. simpl in H. eauto.
      - destruct keyed2 as (_ & K2 & _). rewrite (K2 _ _ _ Eg) in H. simpl in H. congruence. }
    unfold count_matrix in E. apply G in E. subst; auto.
Qed.

Lemma tpms_out_of_range : forall algo n t, full (width t) (rows t) ->
  (exists p i x, diary (rows t) p i x /\ (n <= x)%nat) -> states_to_tpms algo (Some n) t = Err IndexError.
Proof.
  intros algo n t Hf (p & i & x & (r & Hp & Hi) & Hx). apply rectangular_full in Hf as Hr.
  assert (Lr : length r = width t) by (apply (row_in_length t); auto; eapply at_in; eauto).
  pose proof (at_lt _ _ _ _ Hi) as Li.
  unfold states_to_tpms. rewrite Hr. assert (HL := columns_length t).
  destruct (columns t) as [|c cs] eqn:E; [simpl in HL; lia|]. rewrite <- E in *. simpl.
  rewrite last_col by lia. rewrite columns_seq. rewrite count_matrices_err; auto; try lia.
  exists i, r. split; [lia|]. split; [eapply at_in; eauto|]. erewrite nth_error_nth by (exact Hi). auto.
Qed.

(** ** counts_to_pdf *)

Lemma fix_row_spec : forall row, (row <> []) -> Forall (fun x => 0 <= x) row ->
  exists r, fix_row row = Ok r /\ length r = length row /\ Forall (fun x => 0 <= x) r /\ ~ qsum r == 0 /\
    (~ qsum row == 0 -> r = row) /\
    (qsum row == 0 -> is_pdf r /\ nth_error r 0 = Some 1 /\ (forall j, j <> 0%nat -> nth_error r j = nth_error row j) /\
       forall j x, nth_error r j = Some x -> x == if (j =? 0)%nat then 1 else 0).
Proof.
  intros row Hne Hp. unfold fix_row. destruct (Qeq_bool (qsum row) 0) eqn:E.
  - apply Qeq_bool_iff in E. destruct (@set1_row 0 1 row) as (r & H1 & H2 & H3 & H4).
    { destruct row; [congruence|simpl; lia]. }
    pose proof (nonneg_sum_zero Hp E) as Hz. rewrite Forall_forall in Hz.
    destruct (@unit_row 0 row r) as [U1 U2]; auto.
    { intros j x _ Hx. apply Hz. eapply nth_error_In; eauto. }
    exists r. split; auto. split; auto. split; [apply nonneg_Forall; apply U1|].
    split; [destruct U1 as [_ U1]; rewrite total_qsum in U1; rewrite U1; lra|]. split; [tauto|]. auto.
  - apply Qeq_bool_neq' in E. exists row. repeat split; auto; tauto.
Qed.

Definition divide (row : list Q) : list (option Q) := map (fun x => nan_div x (qsum row)) row.

Lemma scaled_fixed : forall row r, Forall (fun x => 0 <= x) row -> row <> [] -> fix_row row = Ok r ->
  exists pdf, divide r = map Some pdf /\ scaled row pdf.
Proof.
  intros row r Hp Hne Hr. destruct (fix_row_spec Hne Hp) as (r' & E & L & P & Nz & K1 & K2).
  rewrite Hr in E. injection E as <-.
  exists (map (fun x => x / qsum r) r). split.
  - unfold divide, nan_div. apply Qeq_bool_neq' in Nz. rewrite Nz. rewrite map_map. reflexivity.
  - destruct (normalise_row_pos P Nz) as [En Hpdf]. rewrite En in Hpdf. split; [rewrite map_length; auto|]. split; auto.
    intros j c q Hc Hq. unfold at_ in *. rewrite nth_error_map in Hq.
    destruct (nth_error r j) as [x|] eqn:Ej; simpl in Hq; [|discriminate]. injection Hq as <-.
    rewrite (total_qsum row). split; intro H.
    + assert (Hnz : ~ qsum row == 0) by lra. specialize (K1 Hnz). subst r. replace x with c by congruence. reflexivity.
    + destruct (K2 H) as (_ & _ & _ & V). rewrite (V j x Ej). destruct (K2 H) as ([_ T] & _). rewrite total_qsum in T. rewrite T. destruct (j =? 0)%nat; field.
Qed.

Lemma counts_to_pdf_spec : forall counts, (forall i row, at_ counts i row -> row <> [] /\ nonneg row) ->
  exists pdfs counts', counts_to_pdf true counts = Ok (map (map Some) pdfs, counts') /\ length pdfs = length counts /\
    (forall i row pdf, at_ counts i row -> at_ pdfs i pdf -> scaled row pdf) /\
    length counts' = length counts /\
    (forall i row row', at_ counts i row -> at_ counts' i row' ->
       (0 < total row -> row' = row) /\
       (total row == 0 -> at_ row' 0 1 /\ length row' = length row /\ forall j x, (0 < j)%nat -> (at_ row' j x <-> at_ row j x))).
Proof.
  intros counts H. unfold counts_to_pdf.
  destruct (@mapM_nth _ _ fix_row counts) as (cs & E & L & V).
  { intros row Hrow. apply in_at in Hrow. destruct Hrow as [i Hi]. destruct (H i row Hi) as [H1 H2].
    apply nonneg_Forall in H2. destruct (fix_row_spec H1 H2) as (r & Hr & _). eauto. }
  rewrite E. simpl.
  assert (P : exists pdfs, map divide cs = map (map Some) pdfs /\ length pdfs = length cs /\
    forall i row pdf, at_ counts i row -> at_ pdfs i pdf -> scaled row pdf).
  { clear E. revert counts H L V. induction cs as [|r cs IH]; intros counts H L V.
    - exists []. split; [reflexivity|]. split; [auto|]. intros [|i] ? ? ? Hx; discriminate.
    - destruct counts as [|row counts]; [discriminate|].
      destruct (V O r eq_refl) as (row' & Er & Hr). simpl in Er. injection Er as <-.
      destruct (H O row eq_refl) as [H1 H2]. apply nonneg_Forall in H2.
      destruct (@scaled_fixed row r H2 H1 Hr) as (pdf & Ep & Sp).
      destruct (IH counts) as (pdfs & Eq & Lq & Vq).
      + intros i row0 Hi. apply (H (S i)). exact Hi.
      + simpl in L. lia.
      + intros k y Hk. apply (V (S k)). exact Hk.
      + exists (pdf :: pdfs). split; [simpl; rewrite Ep, Eq; auto|]. split; [simpl; lia|].
        intros [|i] row0 pdf0 Ha Hb; simpl in Ha, Hb.
        * injection Ha as <-. injection Hb as <-. auto.
        * eapply Vq; eauto. }
  destruct P as (pdfs & Ep & Lp & Vp). exists pdfs, cs. split; [unfold divide in Ep; rewrite Ep; reflexivity|].
  split; [lia|]. split; auto. split; auto.
  intros i row row' Hi Hi'. destruct (V i row' Hi') as (row0 & E0 & Hr). unfold at_ in Hi. rewrite Hi in E0. injection E0 as <-.
  destruct (H i row Hi) as [H1 H2]. apply nonneg_Forall in H2.
  destruct (fix_row_spec H1 H2) as (r' & Er & Lr & _ & _ & K1 & K2). rewrite Hr in Er. injection Er as <-.
  rewrite (total_qsum row). split; intro Ht.
  - apply K1. lra.
  - destruct (K2 Ht) as (_ & G1 & G2 & _). repeat split; auto; unfold at_; rewrite G2 by lia; auto.
Qed.

(** Without the correction the empty rows are NaN. *)
Lemma counts_to_pdf_nan : forall counts pdfs counts', counts_to_pdf false counts = Ok (pdfs, counts') ->
  counts' = counts /\ forall i row pdf, at_ counts i row -> at_ pdfs i pdf ->
    (total row == 0 -> pdf = map (fun _ => None) row) /\
    (nonneg row -> 0 < total row -> exists qs, pdf = map Some qs /\ scaled row qs).
Proof.
  intros counts pdfs counts' H. unfold counts_to_pdf in H. simpl in H. injection H as <- <-. split; auto.
  intros i row pdf Hi Hp. unfold at_ in *. rewrite nth_error_map, Hi in Hp. simpl in Hp. injection Hp as <-.
  rewrite (total_qsum row). split.
  - intro H. apply Qeq_bool_iff in H. unfold nan_div. rewrite H. reflexivity.
  - intros Hn H. apply nonneg_Forall in Hn.
    assert (Hne : row <> []) by (intro; subst; simpl in H; lra).
    assert (Hf : fix_row row = Ok row).
    { unfold fix_row. replace (Qeq_bool (qsum row) 0) with false; auto. symmetry. apply Qeq_bool_neq'. lra. }
    destruct (scaled_fixed Hn Hne Hf) as (qs & E & S). exists qs. split; auto.
Qed.

Lemma counts_to_pdf_empty : forall counts i, at_ counts i [] -> counts_to_pdf true counts = Err IndexError.
Proof.
  intros counts i H. unfold counts_to_pdf. replace (mapM fix_row counts) with (@Err (list (list Q)) IndexError); auto.
  revert i H. induction counts as [|row counts IH]; intros i H; [destruct i; discriminate|]. simpl.
  assert (G : fix_row row = Err IndexError \/ exists r, fix_row row = Ok r).
  { destruct row as [|x row]; [left; reflexivity|right]. unfold fix_row. destruct (Qeq_bool _ _); [|eauto].
    destruct (@set1_row 0 1 (x :: row)) as (r & Hr & _); [simpl; lia|eauto]. }
  destruct i as [|i]; simpl in H.
  - injection H as ->. reflexivity.
  - destruct G as [-> | [r ->]]; simpl; auto. rewrite <- (IH i H). reflexivity.
Qed.

(** ** convert_states *)

Section ConvertFacts.
  Variables (A B : Type) (cmpA : A -> A -> comparison) (cmpB : B -> B -> comparison).
  Hypothesis ordA : total_order cmpA.
  Hypothesis ordB : total_order cmpB.

  Lemma mapM_map_total : forall X Y (f : X -> result Y) (g : X -> Y) l, (forall x, In x l -> f x = Ok (g x)) ->
    mapM f l = Ok (map g l).
  Proof.
    induction l as [|x l IH]; intro H; simpl; auto. rewrite (H x) by (left; auto). simpl.
    rewrite IH by (intros; apply H; right; auto). reflexivity.
  Qed.

  Lemma convert_spec : forall (merge : A -> option B) raw,
    (exists p i x, diary raw p i x) -> (forall p i x, diary raw p i x -> merge x <> None) ->
    exists out labels, convert_states cmpA cmpB merge raw = Ok (out, labels) /\
      length out = length raw /\
      (forall p row row', at_ raw p row -> at_ out p row' -> length row' = length row) /\
      (forall p i x, diary raw p i x -> exists k y, diary out p i k /\ merge x = Some y /\ at_ labels k y) /\
      (forall k k' y y', (k < k')%nat -> at_ labels k y -> at_ labels k' y' -> cmpB y y' = Lt) /\
      (forall k, (k < length labels)%nat -> exists p i, diary out p i k).
  Proof.
    intros merge raw (p0 & i0 & x0 & H0) Hm. unfold convert_states.
    assert (Hin : forall x, In x (concat raw) <-> exists p i, diary raw p i x).
    { intro x. rewrite concat_in. split.
      - intros (r & Hr & Hx). apply in_at in Hr, Hx. destruct Hr as [p Hp], Hx as [i Hi]. exists p, i, r; auto.
      - intros (p & i & r & Hp & Hi). exists r. split; eapply at_in; eauto. }
    set (u := uniq cmpA (concat raw)).
    assert (Hu : forall x, In x u <-> exists p i, diary raw p i x) by (intro x; unfold u; rewrite uniq_in; auto).
    assert (Hu0 : In x0 u) by (apply Hu; eauto).
    destruct (merge x0) as [y0|] eqn:Ey0; [|exfalso; eapply Hm; eauto].
    set (g := fun x => match merge x with Some y => y | None => y0 end).
    assert (Hg : forall x, In x u -> merge x = Some (g x)).
    { intros x Hx. apply Hu in Hx. destruct Hx as (p & i & Hx). unfold g. destruct (merge x) eqn:E; auto. exfalso; eapply Hm; eauto. }
    assert (El : (match u with [] => Err ValueError | _ => mapM (fun x => match merge x with Some y => Ok y | None => Err KeyError end) u end) = Ok (map g u)).
    { rewrite (mapM_map_total _ g) by (intros x Hx; rewrite Hg by auto; auto). destruct u; [destruct Hu0|reflexivity]. }
    rewrite El. simpl.
    set (lab := uniq cmpB (map g u)).
    assert (Hlab : forall x, In x u -> In (g x) lab) by (intros x Hx; unfold lab; rewrite uniq_in by auto; apply in_map; auto).
    set (h := fun x => index_in cmpB (g x) lab).
    assert (Hraw : forall r x, In r raw -> In x r -> In x u).
    { intros r x Hr Hx. unfold u. rewrite uniq_in by auto. apply concat_in. eauto. }
    assert (Eo : mapM (mapM (fun i => match nth_error (map (fun y => index_in cmpB y lab) (map g u)) i with Some k => Ok k | None => Err IndexError end))
                   (map (map (fun x => index_in cmpA x u)) raw) = Ok (map (map h) raw)).
    { clear - Hraw ordA. clearbody lab u. induction raw as [|r raw IH]; [reflexivity|]. cbn [map mapM].
      assert (E1 : mapM (fun i => match nth_error (map (fun y => index_in cmpB y lab) (map g u)) i with Some k => Ok k | None => Err IndexError end)
                     (map (fun x => index_in cmpA x u) r) = Ok (map h r)).
      { assert (Hr : forall x, In x r -> In x u) by (intros; eapply Hraw; [left; reflexivity|auto]).
        clear - Hr ordA. induction r as [|x r IH]; [reflexivity|]. cbn [map mapM].
        rewrite !nth_error_map, (index_in_at ordA) by (apply Hr; left; auto). simpl.
        rewrite IH by (intros; apply Hr; right; auto). reflexivity. }
      rewrite E1. simpl. rewrite IH by (intros; eapply Hraw; [right|]; eauto). reflexivity. }
    rewrite Eo. simpl. exists (map (map h) raw), lab. split; auto. split; [apply map_length|]. split; [|split; [|split]].
    - intros p row row' Hp Hp'. unfold at_ in *. rewrite nth_error_map, Hp in Hp'. simpl in Hp'. injection Hp' as <-. apply map_length.
    - intros p i x Hx. assert (Hxu : In x u) by (apply Hu; eauto). exists (h x), (g x). split; [|split; auto].
      + destruct Hx as (r & Hp & Hi). exists (map h r). unfold at_ in *. rewrite !nth_error_map, Hp, Hi. auto.
      + unfold h. apply (index_in_at ordB). auto.
    - intros k k' y y' Hk Hy Hy'. eapply sorted_nth; eauto. unfold lab. apply uniq_sorted; auto.
    - intros k Hk. destruct (nth_error lab k) as [y|] eqn:Ey; [|apply nth_error_None in Ey; lia].
      assert (Hy : In y (map g u)) by (apply (uniq_in ordB); eapply nth_error_In; eauto).
      apply in_map_iff in Hy. destruct Hy as (x & Egx & Hx). pose proof Hx as Hxu. apply Hu in Hx. destruct Hx as (p & i & r & Hp & Hi).
      exists p, i, (map h r). unfold at_ in *. rewrite !nth_error_map, Hp, Hi. split; auto. simpl. f_equal.
      unfold h. rewrite Egx.
      assert (E : nth_error lab (index_in cmpB y lab) = Some y) by (apply (index_in_at ordB); eapply nth_error_In; eauto).
      assert (Nd : NoDup lab) by (apply uniq_nodup; auto).
      eapply (proj1 (NoDup_nth_error lab) Nd); [apply nth_error_Some; congruence|congruence].
  Qed.

  Lemma convert_missing : forall (merge : A -> option B) raw,
    (exists p i x, diary raw p i x /\ merge x = None) -> convert_states cmpA cmpB merge raw = Err KeyError.
  Proof.
    intros merge raw (p & i & x & (r & Hp & Hi) & Hx). unfold convert_states.
    assert (Hu : In x (uniq cmpA (concat raw))).
    { apply uniq_in; auto. apply concat_in. exists r; split; eapply at_in; eauto. }
    set (u := uniq cmpA (concat raw)) in *.
    assert (E : mapM (fun x => match merge x with Some y => Ok y | None => Err KeyError end) u = Err KeyError).
    { clear - Hu Hx. induction u as [|y u IH]; [destruct Hu|]. simpl. destruct Hu as [->|Hu].
      - rewrite Hx. reflexivity.
      - destruct (merge y); simpl; auto. rewrite IH by auto. reflexivity. }
    destruct u as [|y u]; [destruct Hu|]. rewrite E. reflexivity.
  Qed.
End ConvertFacts.

(** ** Initial durations *)

Lemma run_length_le : forall x r, (run_length x r <= length r)%nat.
Proof. induction r as [|y r IH]; simpl; [lia|]. destruct (x =? y)%nat; lia. Qed.

Lemma run_length_ge : forall x r t d, (t < run_length x r)%nat -> nth t r d = x.
Proof.
  induction r as [|y r IH]; intros t d H; simpl in H; [lia|]. destruct (Nat.eqb_spec x y); [|lia].
  destruct t; simpl; auto. apply IH. lia.
Qed.

Lemma run_length_end : forall x r d, (run_length x r < length r)%nat -> nth (run_length x r) r d <> x.
Proof.
  induction r as [|y r IH]; intros d H; simpl in *; [lia|]. destruct (Nat.eqb_spec x y); simpl; [apply IH; lia|congruence].
Qed.

Definition rl (r : list nat) : nat := run_length (nth 0 r 0%nat) r.
Definition hd0 (r : list nat) : nat := nth 0 r 0%nat.

Lemma first_lasts_rl : forall d r, r <> [] -> first_lasts d r = (rl r =? d)%nat.
Proof. intros d [|x r] H; [congruence|reflexivity]. Qed.

Lemma initial_mask : forall t i, rectangular t = true -> (i < width t)%nat ->
  first_change (map hd0 (rows t)) (column t i) (map (fun r => (i <=? rl r)%nat) (rows t)) =
  map (fun r => (rl r =? i)%nat) (rows t).
Proof.
  intros t i Hr Hi. unfold first_change. rewrite (column_map t 0%nat Hr Hi), !map2_map.
  apply map_ext_in. intros r Hin. pose proof (row_in_length t r Hr Hin) as L. unfold rl, hd0.
  destruct (Nat.leb_spec i (run_length (nth 0 r 0%nat) r)) as [Hle|Hgt].
  - destruct (Nat.eqb_spec (run_length (nth 0 r 0%nat) r) i) as [He|Hne].
    + rewrite andb_true_r. apply negb_true_iff, Nat.eqb_neq. rewrite <- He.
      assert (G := @run_length_end (nth 0 r 0%nat) r 0%nat). intro E. apply G; [lia|]. congruence.
    + rewrite (@run_length_ge (nth 0 r 0%nat) r i 0%nat) by lia. rewrite Nat.eqb_refl. reflexivity.
  - rewrite andb_false_r. symmetry. apply Nat.eqb_neq. lia.
Qed.

Lemma put_counts_spec : forall col n m (l : list nat) (c : list (list Q)), shape2 n m c -> (col < m)%nat ->
  (forall x, In x l -> (x < n)%nat) -> (forall s, (s < n)%nat -> get2 c (s, col) = Some 0) ->
  exists c', put_counts col l c = Ok c' /\ shape2 n m c' /\
    (forall s, (s < n)%nat -> get2 c' (s, col) = Some (qn (length (filter (Nat.eqb s) l)))) /\
    (forall s j, j <> col -> get2 c' (s, j) = get2 c (s, j)).
Proof.
  intros col n m l c Hs Hcol Hl Hz. unfold put_counts.
  set (kvs := map (fun uc => ((fst uc, col), snd uc)) (uniq_counts Nat.compare l)).
  assert (Hk : map fst kvs = map (fun u => (u, col)) (uniq Nat.compare l)).
  { unfold kvs, uniq_counts. rewrite !map_map. reflexivity. }
  assert (Hin : forall k cc, In (k, cc) kvs <-> exists u, k = (u, col) /\ In u l /\ cc = count_of Nat.compare u l).
  { intros k cc. unfold kvs, uniq_counts. rewrite map_map, in_map_iff. split.
    - intros (u & E & Hu). injection E as <- <-. exists u. split; auto. split; auto. rewrite (uniq_in nat_order) in Hu. auto.
    - intros (u & -> & Hu & ->). exists u. split; auto. apply (uniq_in nat_order). auto. }
  destruct (@assign_spec _ _ _ _ keyed2 dec2 kvs c) as (c' & E & H1 & H2).
  - rewrite Hk. apply FinFun.Injective_map_NoDup; [intros a b Hab; congruence|apply uniq_nodup; apply nat_order].
  - intros k cc H. apply Hin in H. destruct H as (u & -> & Hu & _). rewrite Hz by auto. discriminate.
  - exists c'. split; auto. split; [eapply assign2_shape; eauto|]. split.
    + intros s Hsn. destruct (in_dec Nat.eq_dec s l) as [Hi|Hi].
      * rewrite (H1 (s, col) (count_of Nat.compare s l)) by (apply Hin; eauto). unfold qn, count_of. f_equal. f_equal. f_equal.
        apply filter_ext_length. intros x _. unfold is_eq. destruct (Nat.compare_spec s x), (Nat.eqb_spec s x); auto; lia.
      * rewrite H2, Hz by (try (rewrite Hk, in_map_iff; intros (u & E' & Hu); injection E' as ->; rewrite (uniq_in nat_order) in Hu; auto); auto).
        replace (filter (Nat.eqb s) l) with (@nil nat); [reflexivity|].
        clear - Hi. induction l as [|y l IH]; simpl; auto. destruct (Nat.eqb_spec s y); [exfalso; apply Hi; left; auto|].
        apply IH. intro; apply Hi; right; auto.
    + intros s j Hj. apply H2. rewrite Hk, in_map_iff. intros (u & E' & _). congruence.
Qed.

Definition start_count (t : table nat) (s d : nat) : Q :=
  qn (length (filter (fun r => (rl r =? d)%nat && (hd0 r =? s)%nat) (rows t))).

Lemma initial_loop_spec : forall t n m i c, rectangular t = true ->
  (forall r, In r (rows t) -> (hd0 r < n)%nat) -> (i + m = width t)%nat ->
  shape2 n (width t + 1) c ->
  (forall s d, (s < n)%nat -> (d <= width t)%nat -> get2 c (s, d) = Some (if (d <? i)%nat then start_count t s d else 0)) ->
  exists c', initial_loop (map hd0 (rows t)) i (map (column t) (seq i m)) (map (fun r => (i <=? rl r)%nat) (rows t)) c =
    Ok (map (fun r => (width t <=? rl r)%nat) (rows t), c') /\ shape2 n (width t + 1) c' /\
    (forall s d, (s < n)%nat -> (d <= width t)%nat -> get2 c' (s, d) = Some (if (d <? width t)%nat then start_count t s d else 0)).
Proof.
  intros t n m. induction m as [|m IH]; intros i c Hr Hn Him Hs Hc.
  - simpl. replace i with (width t) in * by lia. exists c. auto.
  - cbn [seq map initial_loop]. cbv zeta. rewrite initial_mask by (auto; lia).
    rewrite compress_mapmap.
    destruct (@put_counts_spec i n (width t + 1) (map hd0 (filter (fun r => (rl r =? i)%nat) (rows t))) c) as (c1 & E1 & S1 & V1 & O1); auto; try lia.
    { intros x Hx. apply in_map_iff in Hx. destruct Hx as (r & <- & Hx). apply filter_In in Hx. apply Hn; tauto. }
    { intros s Hsn. rewrite Hc by (auto; lia). rewrite Nat.ltb_irrefl. auto. }
    rewrite E1. cbn [bind]. rewrite map2_map.
    assert (Em : map (fun r => (i <=? rl r)%nat && negb (rl r =? i)%nat) (rows t) = map (fun r => (S i <=? rl r)%nat) (rows t)).
    { apply map_ext. intro r. destruct (Nat.leb_spec i (rl r)), (Nat.eqb_spec (rl r) i), (Nat.leb_spec (S i) (rl r)); simpl; auto; lia. }
    rewrite Em. apply IH; auto; try lia.
    intros s d Hsn Hd. destruct (Nat.eq_dec d i) as [->|Hne].
    + rewrite V1 by auto. replace (i <? S i)%nat with true by (symmetry; apply Nat.ltb_lt; lia). f_equal. unfold start_count. f_equal.
      rewrite filter_map_length. clear. induction (rows t) as [|r rs IH]; simpl; auto.
      destruct (rl r =? i)%nat; simpl; auto. rewrite (Nat.eqb_sym s). destruct (hd0 r =? s)%nat; simpl; auto.
    + rewrite O1 by auto. rewrite Hc by auto. destruct (Nat.ltb_spec d i), (Nat.ltb_spec d (S i)); auto; lia.
Qed.

Lemma start_count_spec : forall t s d, rectangular t = true -> (0 < width t)%nat ->
  start_count t s d = persons_with (fun r => is_at 0 s r && first_lasts d r) (rows t).
Proof.
  intros t s d Hr Hw. unfold start_count, persons_with, qn. f_equal. f_equal. apply filter_ext_length. intros r Hin.
  pose proof (row_in_length t r Hr Hin) as L. rewrite is_at_nth by lia. rewrite first_lasts_rl by (intro; subst; simpl in L; lia).
  rewrite andb_comm. reflexivity.
Qed.

Lemma start_total : forall t s, rectangular t = true -> (0 < width t)%nat ->
  qsum (map (fun d => start_count t s d) (seq 0 (width t + 1))) == persons_with (is_at 0 s) (rows t).
Proof.
  intros t s Hr Hw. unfold start_count.
  rewrite (qsum_qn (fun d => length (filter (fun r => (rl r =? d)%nat && (hd0 r =? s)%nat) (rows t)))).
  change (persons_with _ _) with (qn (length (filter (is_at 0 s) (rows t)))).
  rewrite <- (@split_count _ (is_at 0 s) rl (width t + 1) (rows t)).
  - erewrite nsum_map_ext; [reflexivity|]. intros d _. apply filter_ext_length. intros r Hin. rewrite andb_comm.
    pose proof (row_in_length t r Hr Hin) as L. rewrite is_at_nth by lia. reflexivity.
  - intros r Hin. pose proof (row_in_length t r Hr Hin) as L. unfold rl. pose proof (run_length_le (nth 0 r 0%nat) r). lia.
Qed.

Lemma column0 : forall t, rectangular t = true -> (0 < width t)%nat -> column t 0 = map hd0 (rows t).
Proof. intros t Hr Hw. apply (column_map t 0%nat Hr Hw). Qed.

Lemma row_from_get' : forall (m : list (list Q)) n w a row f, shape2 n w m -> nth_error m a = Some row ->
  (forall b, (b < w)%nat -> get2 m (a, b) = Some (f b)) -> row = map f (seq 0 w).
Proof.
  intros m n w a row f [H1 H2] Ha Hf. apply nth_list_ext. intro b. rewrite nth_error_map.
  assert (Hl : length row = w) by (rewrite Forall_forall in H2; apply H2; eapply nth_error_In; eauto).
  destruct (lt_dec b w) as [Hb|Hb].
  - specialize (Hf b Hb). unfold get2 in Hf; simpl in Hf. rewrite Ha in Hf. rewrite Hf.
    rewrite (nth_error_nth' _ 0%nat) by (rewrite seq_length; auto). rewrite seq_nth by auto. reflexivity.
  - transitivity (@None Q); [apply nth_error_None; lia|].
    replace (nth_error (seq 0 w) b) with (@None nat); [reflexivity|]. symmetry. apply nth_error_None. rewrite seq_length. lia.
Qed.

Lemma initial_spec : forall t n, full (width t) (rows t) -> (0 < width t)%nat ->
  n = length (uniq Nat.compare (concat (rows t))) ->
  (forall p x, diary (rows t) p 0 x -> (x < n)%nat) ->
  exists pdfs, get_initial_durations_pdfs t = Ok (map (map Some) pdfs) /\ length pdfs = n /\
    (forall s pdf, at_ pdfs s pdf ->
       length pdf = (width t + 1)%nat /\ is_pdf pdf /\
       forall d q, at_ pdf d q ->
         (0 < persons_with (is_at 0 s) (rows t) ->
            q == persons_with (fun r => is_at 0 s r && first_lasts d r) (rows t) / persons_with (is_at 0 s) (rows t)) /\
         (persons_with (is_at 0 s) (rows t) == 0 -> q == if Nat.eqb d 0 then 1 else 0)).
Proof.
  intros t n Hf Hw En Hst. apply rectangular_full in Hf as Hr.
  unfold get_initial_durations_pdfs. rewrite Hr. assert (HL := columns_length t). pose proof (columns_at t Hw) as HC.
  destruct (columns t) as [|c cs] eqn:E; [simpl in HL; lia|]. simpl in HC. injection HC as ->. rewrite <- E. rewrite <- En.
  rewrite column0 by auto.
  assert (Hn : forall r, In r (rows t) -> (hd0 r < n)%nat).
  { intros r Hin. pose proof (row_in_length t r Hr Hin) as L. apply in_at in Hin. destruct Hin as [p Hp].
    apply (Hst p). exists r. split; auto. unfold at_, hd0. apply nth_error_nth'. lia. }
  assert (Em0 : map (fun _ : nat => true) (map hd0 (rows t)) = map (fun r => (0 <=? rl r)%nat) (rows t)) by (rewrite map_map; reflexivity).
  rewrite Em0, columns_seq.
  destruct (@initial_loop_spec t n (width t) 0 (zeros2 n (width t + 1))) as (c1 & E1 & S1 & V1); auto; try lia.
  { apply zeros2_shape. } { intros s d Hs Hd. simpl. apply zeros2_get; lia. }
  rewrite E1. cbn [bind fst snd]. rewrite compress_mapmap.
  destruct (@put_counts_spec (width t) n (width t + 1) (map hd0 (filter (fun r => (width t <=? rl r)%nat) (rows t))) c1) as (c2 & E2 & S2 & V2 & O2); auto; try lia.
  { intros x Hx. apply in_map_iff in Hx. destruct Hx as (r & <- & Hx). apply filter_In in Hx. apply Hn; tauto. }
  { intros s Hs. rewrite V1 by (auto; lia). rewrite Nat.ltb_irrefl. auto. }
  rewrite E2. cbn [bind].
  assert (Hrow : forall s row, nth_error c2 s = Some row -> (s < n)%nat /\ row = map (fun d => start_count t s d) (seq 0 (width t + 1))).
  { intros s row Hrow. assert (Hs : (s < n)%nat) by (destruct S2 as [S2 _]; rewrite <- S2; apply nth_error_Some; congruence).
    split; auto. apply (@row_from_get' c2 n (width t + 1) s row); auto. intros d Hd.
    destruct (Nat.eq_dec d (width t)) as [->|Hne].
    - rewrite V2 by auto. f_equal. unfold start_count. f_equal. rewrite filter_map_length.
      assert (G : forall r, In r (rows t) -> (width t <=? rl r)%nat = (rl r =? width t)%nat).
      { intros r Hin. pose proof (row_in_length t r Hr Hin) as L. pose proof (run_length_le (nth 0 r 0%nat) r). unfold rl in *.
        destruct (Nat.leb_spec (width t) (run_length (nth 0 r 0%nat) r)), (Nat.eqb_spec (run_length (nth 0 r 0%nat) r) (width t)); auto; lia. }
      clear - G. revert G. generalize (rows t). induction l as [|r rs IH]; intro G; simpl; auto.
      rewrite (G r) by (left; auto). assert (IH' := IH (fun r H => G r (or_intror H))).
      destruct (rl r =? width t)%nat; simpl; auto. rewrite (Nat.eqb_sym s). destruct (hd0 r =? s)%nat; simpl; auto.
    - rewrite O2 by auto. rewrite V1 by (auto; lia). replace (d <? width t)%nat with true by (symmetry; apply Nat.ltb_lt; lia). auto. }
  destruct (@counts_to_pdf_spec c2) as (pdfs & c3 & E3 & L3 & Sc & _).
  { intros s row Hs. destruct (Hrow s row Hs) as [_ ->]. split.
    - rewrite Nat.add_1_r. simpl. discriminate.
    - apply nonneg_Forall. apply Forall_forall. intros x Hx. apply in_map_iff in Hx. destruct Hx as (? & <- & _). apply qn_nonneg. }
  rewrite E3. cbn [bind fst]. exists pdfs. split; auto. split; [destruct S2; lia|].
  intros s pdf Hs. assert (Ls : (s < length c2)%nat) by (rewrite <- L3; eapply at_lt; eauto).
  destruct (lt_at _ c2 s Ls) as [row Hrow']. destruct (Hrow s row Hrow') as [Hsn Erow].
  destruct (Sc s row pdf Hrow' Hs) as (Lp & Pp & Vp).
  split; [rewrite Lp, Erow, map_length, seq_length; auto|]. split; auto.
  intros d q Hq. assert (Ld : (d < length row)%nat) by (rewrite <- Lp; eapply at_lt; eauto).
  assert (Hd : at_ row d (start_count t s d)).
  { rewrite Erow in *. rewrite map_length, seq_length in Ld. unfold at_. rewrite nth_error_map, (nth_error_nth' _ 0%nat) by (rewrite seq_length; auto).
    rewrite seq_nth by auto. reflexivity. }
  destruct (Vp d _ q Hd Hq) as [V3 V4].
  assert (Et : total row == persons_with (is_at 0 s) (rows t)) by (rewrite (total_qsum row), Erow; apply start_total; auto).
  rewrite <- start_count_spec by auto. split; intro H.
  - rewrite V3 by (rewrite Et; auto). rewrite Et. reflexivity.
  - apply V4. rewrite Et. auto.
Qed.
