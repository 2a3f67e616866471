(** * Proofs about the semi-Markov estimates and the household transitions. *)

From Coq Require Import List ZArith QArith Bool Lia Lqa Arith.
From Verif Require Import Prelude PreludeFacts SpecBase SpecBaseFacts Parse_Model Parse_Spec Parse_Proofs Parse_DurProofs Parse_TpmProofs.
Import ListNotations.

Set Implicit Arguments.

(** ** Arrays as tables of functions *)

Definition tab {A} (n : nat) (w : nat -> A) : list A := map w (seq 0 n).
Definition tab3 (n m k : nat) (w : nat -> nat -> nat -> Q) := tab n (fun i => tab m (fun j => tab k (w i j))).
Definition tab4 (n m k l : nat) (w : nat -> nat -> nat -> nat -> Q) := tab n (fun i => tab3 m k l (w i)).

Lemma tab_length : forall A n (w : nat -> A), length (tab n w) = n.
Proof. intros. unfold tab. rewrite map_length, seq_length. auto. Qed.

Lemma tab_nth : forall A n (w : nat -> A) i, (i < n)%nat -> nth_error (tab n w) i = Some (w i).
Proof.
  intros A n w i H. unfold tab. rewrite nth_error_map, (nth_error_nth' _ 0%nat) by (rewrite seq_length; auto).
  rewrite seq_nth by auto. reflexivity.
Qed.

Lemma tab_ext : forall A n (v w : nat -> A), (forall i, (i < n)%nat -> v i = w i) -> tab n v = tab n w.
Proof. intros. apply map_ext_in. intros i Hi. apply in_seq in Hi. apply H. lia. Qed.

Lemma tab_at : forall A n (w : nat -> A) i x, at_ (tab n w) i x -> (i < n)%nat /\ x = w i.
Proof.
  intros A n w i x H. pose proof (at_lt _ _ _ _ H) as L. rewrite tab_length in L. split; auto.
  unfold at_ in H. rewrite tab_nth in H by auto. congruence.
Qed.

Lemma upd_tab : forall A n (w : nat -> A) i f y, (i < n)%nat -> f (w i) = Ok y ->
  upd i f (tab n w) = Ok (tab n (fun j => if (j =? i)%nat then y else w j)).
Proof.
  intros A n w i f y Hi Hf. destruct (@upd_total _ i f (tab n w) (w i) y) as [l' Hl']; [apply tab_nth; auto|auto|].
  rewrite Hl'. f_equal. apply upd_ok in Hl'. destruct Hl' as (x & y' & H1 & H2 & H3 & H4 & H5).
  rewrite tab_nth in H1 by auto. injection H1 as <-. apply nth_list_ext. intro j.
  destruct (lt_dec j n) as [Hj|Hj].
  - rewrite tab_nth by auto. destruct (Nat.eqb_spec j i) as [->|Hne]; [congruence|]. rewrite H5, tab_nth by auto. reflexivity.
  - transitivity (@None A); [|symmetry]; apply nth_error_None; rewrite ?H4, tab_length; lia.
Qed.

Lemma tab_repeat : forall A n (x : A), repeat x n = tab n (fun _ => x).
Proof.
  intros. apply nth_list_ext. intro i. destruct (lt_dec i n).
  - rewrite nth_error_repeat, tab_nth; auto.
  - transitivity (@None A); [|symmetry]; apply nth_error_None; rewrite ?repeat_length, ?tab_length; lia.
Qed.

Lemma zeros3_tab : forall n m k, zeros3 n m k = tab3 n m k (fun _ _ _ => 0).
Proof. intros. unfold zeros3, zeros2, zeros1, tab3. rewrite !tab_repeat. reflexivity. Qed.
Lemma zeros4_tab : forall n m k l, zeros4 n m k l = tab4 n m k l (fun _ _ _ _ => 0).
Proof. intros. unfold zeros4, tab4. rewrite zeros3_tab, tab_repeat. reflexivity. Qed.

Definition put3 (i j l : nat) (v : Q) (w : nat -> nat -> nat -> Q) (i' j' l' : nat) : Q :=
  if ((i' =? i) && (j' =? j) && (l' =? l))%nat then v else w i' j' l'.
Definition put4 (i j l h : nat) (v : Q) (w : nat -> nat -> nat -> nat -> Q) (i' j' l' h' : nat) : Q :=
  if ((i' =? i) && (j' =? j) && (l' =? l) && (h' =? h))%nat then v else w i' j' l' h'.

Lemma tab3_ext : forall n m k v w, (forall i j l, (i < n)%nat -> (j < m)%nat -> (l < k)%nat -> v i j l = w i j l) ->
  tab3 n m k v = tab3 n m k w.
Proof. intros. unfold tab3. apply tab_ext. intros. apply tab_ext. intros. apply tab_ext. auto. Qed.
Lemma tab4_ext : forall n m k h v w, (forall i j l g, (i < n)%nat -> (j < m)%nat -> (l < k)%nat -> (g < h)%nat -> v i j l g = w i j l g) ->
  tab4 n m k h v = tab4 n m k h w.
Proof. intros. unfold tab4. apply tab_ext. intros. apply tab3_ext. auto. Qed.

Lemma set3_tab : forall n m k w i j l v, (i < n)%nat -> (j < m)%nat -> (l < k)%nat ->
  set3 (i, j, l) v (tab3 n m k w) = Ok (tab3 n m k (put3 i j l v w)).
Proof.
  intros n m k w i j l v Hi Hj Hl. unfold set3, tab3; cbn [fst snd].
  erewrite upd_tab; [|auto|]; [|unfold set2; cbn [fst snd]; erewrite upd_tab; [reflexivity|auto|];
    unfold set1; erewrite upd_tab; [reflexivity|auto|reflexivity]].
  f_equal. apply tab_ext. intros i' Hi'. unfold put3. destruct (Nat.eqb_spec i' i) as [->|]; simpl; auto.
  apply tab_ext. intros j' Hj'. destruct (Nat.eqb_spec j' j) as [->|]; simpl; auto.
Qed.

Lemma set4_tab : forall n m k h w i j l g v, (i < n)%nat -> (j < m)%nat -> (l < k)%nat -> (g < h)%nat ->
  set4 (i, j, l, g) v (tab4 n m k h w) = Ok (tab4 n m k h (put4 i j l g v w)).
Proof.
  intros n m k h w i j l g v Hi Hj Hl Hg. unfold set4, tab4; cbn [fst snd].
  erewrite upd_tab; [|auto|]; [|apply set3_tab; auto].
  f_equal. apply tab_ext. intros i' Hi'. unfold put4. destruct (Nat.eqb_spec i' i) as [->|]; simpl; auto.
Qed.

Lemma get3_tab : forall n m k w i j l, (i < n)%nat -> (j < m)%nat -> (l < k)%nat ->
  get3 (tab3 n m k w) (i, j, l) = Some (w i j l).
Proof. intros. unfold get3, get2, tab3; cbn [fst snd]. rewrite tab_nth by auto. rewrite tab_nth by auto. apply tab_nth; auto. Qed.
Lemma get4_tab : forall n m k h w i j l g, (i < n)%nat -> (j < m)%nat -> (l < k)%nat -> (g < h)%nat ->
  get4 (tab4 n m k h w) (i, j, l, g) = Some (w i j l g).
Proof. intros. unfold get4, tab4; cbn [fst snd]. rewrite tab_nth; auto. apply get3_tab; auto. Qed.

Lemma assign3_tab : forall n m k kvs w, (forall i j l c, In ((i, j, l), c) kvs -> (i < n)%nat /\ (j < m)%nat /\ (l < k)%nat) ->
  exists w', assign set3 kvs (tab3 n m k w) = Ok (tab3 n m k w').
Proof.
  induction kvs as [|[[[i j] l] c] kvs IH]; intros w H; [eexists; reflexivity|]. cbn [assign].
  destruct (H i j l c) as (H1 & H2 & H3); [left; auto|]. rewrite set3_tab by auto. cbn [bind]. apply IH. intros; eapply H; right; eauto.
Qed.
Lemma assign4_tab : forall n m k h kvs w, (forall i j l g c, In ((i, j, l, g), c) kvs -> (i < n)%nat /\ (j < m)%nat /\ (l < k)%nat /\ (g < h)%nat) ->
  exists w', assign set4 kvs (tab4 n m k h w) = Ok (tab4 n m k h w').
Proof.
  induction kvs as [|[[[[i j] l] g] c] kvs IH]; intros w H; [eexists; reflexivity|]. cbn [assign].
  destruct (H i j l g c) as (H1 & H2 & H3 & H4); [left; auto|]. rewrite set4_tab by auto. cbn [bind]. apply IH. intros; eapply H; right; eauto.
Qed.

Lemma in_uniq_counts : forall A (cmp : A -> A -> comparison) l k c, total_order cmp -> In (k, c) (uniq_counts cmp l) -> In k l.
Proof. intros A cmp l k c H Hin. unfold uniq_counts in Hin. apply in_map_iff in Hin. destruct Hin as (x & E & Hx). injection E as -> _. rewrite (uniq_in H) in Hx. auto. Qed.

Lemma is_eq_order : forall A (cmp : A -> A -> comparison) (b : bool) x y, total_order cmp -> (b = true <-> x = y) -> is_eq cmp x y = b.
Proof.
  intros A cmp b x y (H & _) Hb. unfold is_eq. destruct (cmp x y) eqn:E.
  - apply H in E. destruct b; auto. symmetry. tauto.
  - destruct b; auto. assert (x = y) by tauto. apply H in H0. congruence.
  - destruct b; auto. assert (x = y) by tauto. apply H in H0. congruence.
Qed.

Lemma assign3_counts : forall n m k xs ys zs,
  (forall i j l, In (i, j, l) (zip3 xs ys zs) -> (i < n)%nat /\ (j < m)%nat /\ (l < k)%nat) ->
  assign set3 (uniq_counts cmp3 (zip3 xs ys zs)) (zeros3 n m k) = Ok (tab3 n m k (lines3 xs ys zs)).
Proof.
  intros n m k xs ys zs H. rewrite zeros3_tab.
  destruct (@assign3_tab n m k (uniq_counts cmp3 (zip3 xs ys zs)) (fun _ _ _ => 0)) as [w' E].
  { intros i j l c Hin. apply H. eapply in_uniq_counts; eauto. apply order3. }
  rewrite E. f_equal. apply tab3_ext. intros i j l Hi Hj Hl.
  destruct (@assign_counts _ _ _ _ keyed3 dec3 cmp3 order3 (zip3 xs ys zs) (tab3 n m k (fun _ _ _ => 0))) as (m' & E' & V & _).
  { intros [[i' j'] l'] Hin. apply H in Hin. apply get3_tab; tauto. }
  rewrite E in E'. injection E' as <-. specialize (V (i, j, l)). rewrite !get3_tab in V by auto. specialize (V eq_refl). injection V as ->.
  unfold cntq, lines3, count_of, zip3. do 3 f_equal. apply filter_ext. intros [[a b] c]. cbn [fst snd]. apply is_eq_order; [apply order3|].
  rewrite !andb_true_iff, !Nat.eqb_eq. split; [intros [[-> ->] ->]; auto|intro E'; injection E'; auto].
Qed.

Lemma assign4_counts : forall n m k h xs ys zs ts,
  (forall i j l g, In (i, j, l, g) (zip4 xs ys zs ts) -> (i < n)%nat /\ (j < m)%nat /\ (l < k)%nat /\ (g < h)%nat) ->
  assign set4 (uniq_counts cmp4 (zip4 xs ys zs ts)) (zeros4 n m k h) = Ok (tab4 n m k h (lines4 xs ys zs ts)).
Proof.
  intros n m k h xs ys zs ts H. rewrite zeros4_tab.
  destruct (@assign4_tab n m k h (uniq_counts cmp4 (zip4 xs ys zs ts)) (fun _ _ _ _ => 0)) as [w' E].
  { intros i j l g c Hin. apply H. eapply in_uniq_counts; eauto. apply order4. }
  rewrite E. f_equal. apply tab4_ext. intros i j l g Hi Hj Hl Hg.
  destruct (@assign_counts _ _ _ _ keyed4 dec4 cmp4 order4 (zip4 xs ys zs ts) (tab4 n m k h (fun _ _ _ _ => 0))) as (m' & E' & V & _).
  { intros [[[i' j'] l'] g'] Hin. apply H in Hin. apply get4_tab; tauto. }
  rewrite E in E'. injection E' as <-. specialize (V (i, j, l, g)). rewrite !get4_tab in V by auto. specialize (V eq_refl). injection V as ->.
  unfold cntq, lines4, count_of, zip4, zip3. do 3 f_equal. apply filter_ext. intros [[[a b] c] e]. cbn [fst snd]. apply is_eq_order; [apply order4|].
  rewrite !andb_true_iff, !Nat.eqb_eq. split; [intros [[[-> ->] ->] ->]; auto|intro E'; injection E'; auto].
Qed.

Lemma first_tab : forall A algo n (w : nat -> A), algo <> AlgoUnknown -> (0 < n)%nat ->
  first_tpm_change algo (tab n w) = Ok (tab n (fun i => w (source algo n i))).
Proof.
  intros A algo n w Ha Hn.
  destruct (@first_change_spec _ algo (tab n w) Ha) as (l' & E & L & V).
  { intro E. assert (length (tab n w) = 0%nat) by (rewrite E; auto). rewrite tab_length in H. lia. }
  rewrite E. f_equal. rewrite tab_length in L, V. apply nth_list_ext. intro i. destruct (lt_dec i n) as [Hi|Hi].
  - rewrite tab_nth by auto. destruct (nth_error l' i) eqn:Ei; [|apply nth_error_None in Ei; lia].
    apply V in Ei. rewrite tab_nth in Ei; [congruence|]. unfold source. destruct algo, i; lia.
  - transitivity (@None A); [|symmetry]; apply nth_error_None; rewrite ?tab_length; lia.
Qed.

(** Entries set by the full days. *)
Definition stay3 (t : table nat) (z : nat -> nat) (is : list nat) (w : nat -> nat -> nat -> Q) (i j l : nat) : Q :=
  if ((i =? 0) && existsb (Nat.eqb j) is && (l =? z j))%nat then qn (stays_count t j) else w i j l.
Definition stay4 (t : table nat) (is : list nat) (w : nat -> nat -> nat -> nat -> Q) (i j l g : nat) : Q :=
  if ((i =? 0) && existsb (Nat.eqb j) is && (l =? j) && (g =? width t))%nat then qn (stays_count t j) else w i j l g.

Lemma put3_stay : forall t z is x w i j l, existsb (Nat.eqb x) is = false ->
  stay3 t z is (put3 0 x (z x) (qn (stays_count t x)) w) i j l = stay3 t z (x :: is) w i j l.
Proof.
  intros t z is x w i j l Hx. unfold stay3, put3. simpl. destruct (Nat.eqb_spec i 0); simpl; auto.
  destruct (Nat.eqb_spec j x) as [->|]; simpl; auto. rewrite Hx. simpl. destruct (Nat.eqb_spec l (z x)); auto.
Qed.

Lemma full_days_tab : forall t n k is w1 w2 w3, (0 < n)%nat -> (forall i, In i is -> (i < k)%nat) -> NoDup is ->
  full_days t is (tab3 n k k w1, tab3 n k (width t + 1) w2, tab4 n k k (width t + 1) w3) =
  Ok (tab3 n k k (stay3 t (fun j => j) is w1), tab3 n k (width t + 1) (stay3 t (fun _ => width t) is w2),
      tab4 n k k (width t + 1) (stay4 t is w3)).
Proof.
  induction is as [|x is IH]; intros w1 w2 w3 Hn Hk Hd.
  - cbn [full_days]. f_equal. f_equal; [f_equal|]; [apply tab3_ext|apply tab3_ext|apply tab4_ext]; intros;
      unfold stay3, stay4; simpl; rewrite ?andb_false_r; auto.
  - inversion Hd as [|? ? Hni Hd']; subst. cbn [full_days]. cbv zeta.
    assert (Hx : (x < k)%nat) by (apply Hk; left; auto).
    rewrite set3_tab by auto. cbn [bind]. rewrite set3_tab by (auto; lia). cbn [bind]. rewrite set4_tab by (auto; lia). cbn [bind].
    rewrite IH; auto; [|intros; apply Hk; right; auto].
    assert (Hex : existsb (Nat.eqb x) is = false).
    { destruct (existsb (Nat.eqb x) is) eqn:E; auto. apply existsb_exists in E. destruct E as (y & Hy & Ey).
      apply Nat.eqb_eq in Ey. subst. contradiction. }
    f_equal. f_equal; [f_equal|].
    + apply tab3_ext. intros. apply (put3_stay t (fun j => j)). auto.
    + apply tab3_ext. intros. apply (put3_stay t (fun _ => width t)). auto.
    + apply tab4_ext. intros i j l g _ _ _ _. unfold stay4, put4. simpl. destruct (Nat.eqb_spec i 0); simpl; auto.
      destruct (Nat.eqb_spec j x) as [->|]; simpl; auto. rewrite Hex. simpl. destruct (Nat.eqb_spec l x), (Nat.eqb_spec g (width t)); auto.
Qed.

(** Normalised tables. *)
Lemma scaled_shares : forall n w pdf, scaled (tab n w) pdf -> shares 0 n w pdf.
Proof.
  intros n w pdf (H1 & H2 & H3). rewrite tab_length in H1. split; auto. split; auto.
  intros j q Hq. pose proof (at_lt _ _ _ _ Hq) as Hj. apply (H3 j (w j) q); auto. unfold at_. apply tab_nth. lia.
Qed.

Lemma nonneg_tab : forall n w, (forall j, 0 <= w j) -> nonneg (tab n w).
Proof. intros n w H. apply nonneg_Forall. apply Forall_forall. intros x Hx. apply in_map_iff in Hx. destruct Hx as (j & <- & _). auto. Qed.

Lemma pdfs2_tab : forall m k w, (0 < k)%nat -> (forall j l, 0 <= w j l) ->
  exists ps, bind (counts_to_pdf true (tab m (fun j => tab k (w j)))) (fun r => Ok (fst r)) = Ok (map (map Some) ps) /\ length ps = m /\
    forall j pdf, at_ ps j pdf -> shares 0 k (w j) pdf.
Proof.
  intros m k w Hk Hw.
  destruct (@counts_to_pdf_spec (tab m (fun j => tab k (w j)))) as (ps & c' & E & L & S & _).
  { intros i row Hrow. apply tab_at in Hrow. destruct Hrow as [_ ->]. split; [|apply nonneg_tab; auto].
    intro E. assert (length (tab k (w i)) = 0%nat) by (rewrite E; auto). rewrite tab_length in H. lia. }
  rewrite E. cbn [bind fst]. exists ps. split; auto. rewrite tab_length in L. split; auto.
  intros j pdf Hj. apply scaled_shares. eapply S; eauto. unfold at_. rewrite tab_nth; auto. rewrite <- L. eapply at_lt; eauto.
Qed.

Lemma mapM_tab : forall A B n (f : A -> result B) (w : nat -> A) (P : nat -> B -> Prop),
  (forall i, (i < n)%nat -> exists y, f (w i) = Ok y /\ P i y) ->
  exists ys, mapM f (tab n w) = Ok ys /\ length ys = n /\ forall i y, at_ ys i y -> P i y.
Proof.
  intros A B n f w P H. unfold tab.
  assert (G : forall m s, (forall i, (s <= i < s + m)%nat -> exists y, f (w i) = Ok y /\ P i y) ->
    exists ys, mapM f (map w (seq s m)) = Ok ys /\ length ys = m /\ forall i y, at_ ys i y -> P (s + i)%nat y).
  { induction m as [|m IH]; intros s Hs; simpl.
    - exists []. repeat split; auto. intros [|i] y Hy; discriminate.
    - destruct (Hs s) as (y & Ey & Py); [lia|]. destruct (IH (S s)) as (ys & E & L & V); [intros; apply Hs; lia|].
      rewrite Ey. simpl. rewrite E. simpl. exists (y :: ys). split; auto. split; [simpl; auto|].
      intros [|i] z Hz; simpl in Hz; [injection Hz as <-; rewrite Nat.add_0_r; auto|]. rewrite Nat.add_succ_r. apply V. auto. }
  apply (G n 0%nat). intros; apply H; lia.
Qed.

Lemma pdfs3_tab : forall n m k w, (0 < k)%nat -> (forall i j l, 0 <= w i j l) ->
  exists ps, pdfs3 (tab3 n m k w) = Ok (map (map (map Some)) ps) /\ length ps = n /\
    forall i p, at_ ps i p -> length p = m /\ forall j pdf, at_ p j pdf -> shares 0 k (w i j) pdf.
Proof.
  intros n m k w Hk Hw. unfold pdfs3, tab3.
  destruct (@mapM_tab _ _ n (fun m => bind (counts_to_pdf true m) (fun r => Ok (fst r))) (fun i => tab m (fun j => tab k (w i j)))
     (fun i y => exists p, y = map (map Some) p /\ length p = m /\ forall j pdf, at_ p j pdf -> shares 0 k (w i j) pdf)) as (ys & E & L & V).
  { intros i Hi. destruct (@pdfs2_tab m k (w i)) as (ps & E & L & V); auto. eexists. split; [exact E|]. exists ps. auto. }
  rewrite E. clear E. assert (G : exists ps, ys = map (map (map Some)) ps /\ length ps = length ys /\
     forall i p, at_ ps i p -> length p = m /\ forall j pdf, at_ p j pdf -> shares 0 k (w i j) pdf).
  { clear L Hw. revert w V. induction ys as [|y ys IH]; intros w V.
    - exists []. repeat split; auto; destruct i; discriminate.
    - destruct (V 0%nat y eq_refl) as (p & -> & Lp & Vp). destruct (IH (fun i => w (S i))) as (ps & -> & L & W).
      { intros i y Hy. apply (V (S i) y Hy). }
      exists (p :: ps). split; auto. split; [simpl; lia|]. intros [|i] q Hq; simpl in Hq; [injection Hq as <-; auto|]. apply W; auto. }
  destruct G as (ps & -> & L' & V'). exists ps. split; auto. split; [congruence|]. auto.
Qed.

Lemma pdfs4_tab : forall n m k h w, (0 < h)%nat -> (forall i j l g, 0 <= w i j l g) ->
  exists ps, pdfs4 (tab4 n m k h w) = Ok (map (map (map (map Some))) ps) /\ length ps = n /\
    forall i p, at_ ps i p -> length p = m /\ forall j q, at_ p j q -> length q = k /\ forall l pdf, at_ q l pdf -> shares 0 h (w i j l) pdf.
Proof.
  intros n m k h w Hk Hw. unfold pdfs4, tab4.
  destruct (@mapM_tab _ _ n pdfs3 (fun i => tab3 m k h (w i))
     (fun i y => exists p, y = map (map (map Some)) p /\ length p = m /\ forall j q, at_ p j q -> length q = k /\ forall l pdf, at_ q l pdf -> shares 0 h (w i j l) pdf)) as (ys & E & L & V).
  { intros i Hi. destruct (@pdfs3_tab m k h (w i)) as (ps & E & L & V); auto. eexists. split; [exact E|]. exists ps. auto. }
  rewrite E. clear E. assert (G : exists ps, ys = map (map (map (map Some))) ps /\ length ps = length ys /\
     forall i p, at_ ps i p -> length p = m /\ forall j q, at_ p j q -> length q = k /\ forall l pdf, at_ q l pdf -> shares 0 h (w i j l) pdf).
  { clear L Hw. revert w V. induction ys as [|y ys IH]; intros w V.
    - exists []. repeat split; auto; destruct i; discriminate.
    - destruct (V 0%nat y eq_refl) as (p & -> & Lp & Vp). destruct (IH (fun i => w (S i))) as (ps & -> & L & W).
      { intros i y Hy. apply (V (S i) y Hy). }
      exists (p :: ps). split; auto. split; [simpl; lia|]. intros [|i] q Hq; simpl in Hq; [injection Hq as <-; auto|]. apply W; auto. }
  destruct G as (ps & -> & L' & V'). exists ps. split; auto. split; [congruence|]. auto.
Qed.

Lemma normalise_tab : forall k w, (forall a b, 0 <= w a b) ->
  exists m, normalise (tab k (fun a => tab k (w a))) = Ok m /\ length m = k /\ forall a row, at_ m a row -> shares a k (w a) row.
Proof.
  intros k w Hw. destruct (@normalise_spec (tab k (fun a => tab k (w a))) k) as (m & E & L & V).
  { split; [apply tab_length|]. apply Forall_forall. intros r Hr. apply in_map_iff in Hr. destruct Hr as (? & <- & _). apply tab_length. }
  { apply Forall_forall. intros r Hr. apply in_map_iff in Hr. destruct Hr as (a & <- & _). apply nonneg_Forall. apply nonneg_tab. auto. }
  exists m. split; auto. split; auto. intros a row Ha.
  assert (Hak : (a < k)%nat) by (rewrite <- L; eapply at_lt; eauto).
  destruct (V a row (tab k (w a)) Ha) as (L1 & P1 & V1); [rewrite tab_nth by auto; auto|].
  split; auto. split; auto. intros b q Hq. assert (Hb : (b < k)%nat) by (rewrite <- L1; eapply at_lt; eauto).
  cbv zeta. fold (tab k (w a)). destruct (V1 b q (w a b) Hq) as [V2 V3]; [rewrite tab_nth by auto; auto|].
  rewrite (total_qsum (tab k (w a))). split; intro H; [apply V2|apply V3]; lra.
Qed.

(** ** The distinct states *)
Lemma distinct_uniq : forall t k, distinct_states (rows t) k <-> k = length (uniq Nat.compare (concat (rows t))).
Proof.
  intros t k.
  assert (Hu : forall x, In x (uniq Nat.compare (concat (rows t))) <-> exists p i, diary (rows t) p i x).
  { intro x. rewrite (uniq_in nat_order), concat_in. split.
    - intros (r & Hr & Hx). apply in_at in Hr, Hx. destruct Hr as [p Hp], Hx as [i Hi]. exists p, i, r; auto.
    - intros (p & i & r & Hp & Hi). exists r. split; eapply at_in; eauto. }
  split.
  - intros (u & Hn & <- & H). apply Nat.le_antisymm; apply NoDup_incl_length; auto.
    + intros x Hx. apply Hu, H, Hx.
    + apply uniq_nodup. apply nat_order.
    + intros x Hx. apply H, Hu, Hx.
  - intros ->. exists (uniq Nat.compare (concat (rows t))). split; [apply uniq_nodup; apply nat_order|]. auto.
Qed.

(** Durations fit in the day. *)
Lemma lasts_lt : forall A n (rows : list (list A)) p i x d, (0 < n)%nat -> lasts n rows p i x d -> (d < Z.of_nat n)%Z.
Proof.
  intros A n rows p i x d Hn (H1 & H2 & H3). destruct (Z_lt_ge_dec d (Z.of_nat n)) as [|Hge]; auto. exfalso. apply H3.
  assert (E : ((i + Z.to_nat d) mod n = (i + (Z.to_nat d mod n)) mod n)%nat) by (rewrite Nat.add_mod_idemp_r by lia; auto).
  rewrite E. apply H2. pose proof (Nat.mod_upper_bound (Z.to_nat d) n). lia.
Qed.

Lemma in_combine_at : forall A B (xs : list A) (ys : list B) x y, In (x, y) (combine xs ys) -> exists k, at_ xs k x /\ at_ ys k y.
Proof.
  induction xs as [|a xs IH]; intros [|b ys] x y H; simpl in H; try contradiction.
  destruct H as [E|H]; [injection E as -> ->; exists 0%nat; split; reflexivity|].
  destruct (IH ys x y H) as (k & H1 & H2). exists (S k). auto.
Qed.

Lemma at_map : forall A B (f : A -> B) l k y, at_ (map f l) k y -> exists x, at_ l k x /\ y = f x.
Proof. intros A B f l k y H. unfold at_ in *. rewrite nth_error_map in H. destruct (nth_error l k) as [x|]; simpl in H; [|discriminate]. injection H as <-. eauto. Qed.

Lemma source_lt : forall algo n i, (i < n)%nat -> (source algo n i < n)%nat.
Proof. intros. unfold source. destruct algo, i; lia. Qed.

Lemma stays_whole : forall t s, qn (stays_count t s) = whole_day s (rows t).
Proof. reflexivity. Qed.

Lemma shares_ext : forall z n v w pdf, (forall j, (j < n)%nat -> v j = w j) -> shares z n v pdf -> shares z n w pdf.
Proof.
  intros z n v w pdf H (H1 & H2 & H3). split; auto. split; auto. intros j q Hq. specialize (H3 j q Hq).
  pose proof (at_lt _ _ _ _ Hq) as Hj. fold (tab n v) in H3. fold (tab n w). rewrite (tab_ext _ _ H) in H3. rewrite <- H by lia. exact H3.
Qed.

Lemma semi_spec : forall algo labels ignore t k, full (width t) (rows t) -> (0 < width t)%nat -> algo <> AlgoUnknown ->
  (labels = Some k \/ labels = None /\ distinct_states (rows t) k) ->
  (forall p i x, diary (rows t) p i x -> (x < k)%nat) ->
  exists tr ds tpm dur durp,
    states_to_transitions_durations Nat.eqb false ignore t = Ok (tr, ds) /\
    states_to_tpms_with_durations algo labels ignore t = Ok (tpm, map (map (map Some)) dur, map (map (map (map Some))) durp) /\
    length tpm = width t /\ length dur = width t /\ length durp = width t /\
    (forall i m, at_ tpm i m -> length m = k /\ forall a row, at_ m a row ->
       shares a k (fun b => if ((i =? 0) && (b =? a))%nat then whole_day a (rows t)
                            else lines3 (tr_times tr) (tr_old tr) (tr_new tr) (source algo (width t) i) a b) row) /\
    (forall i m, at_ dur i m -> length m = k /\ forall b pdf, at_ m b pdf ->
       shares 0 (width t + 1) (fun d => if ((i =? 0) && (d =? width t))%nat then whole_day b (rows t)
                            else lines3 (tr_times tr) (tr_new tr) (map Z.to_nat ds) (source algo (width t) i) b d) pdf) /\
    (forall i m, at_ durp i m -> length m = k /\ forall a m', at_ m a m' -> length m' = k /\ forall b pdf, at_ m' b pdf ->
       shares 0 (width t + 1) (fun d => if ((i =? 0) && (b =? a) && (d =? width t))%nat then whole_day a (rows t)
                            else lines4 (tr_times tr) (tr_old tr) (tr_new tr) (map Z.to_nat ds) (source algo (width t) i) a b d) pdf).
Proof.
  intros algo labels ignore t k Hf Hw Ha Hlab Hst.
  destruct (@durations_spec _ Nat.eqb Nat.eqb_eq ignore t Hf Hw) as (tr & ds & E1 & E2 & Ld & Vd & _).
  assert (Hex : forall k0 i p new old, line (tr_times tr) (tr_persons tr) (tr_new tr) (tr_old tr) k0 i p new old ->
     goes (width t) (rows t) i p new old).
  { destruct ignore.
    - destruct (@transitions_exact_ignore _ Nat.eqb Nat.eqb_eq t Hf Hw) as (tr' & E' & (_ & _ & _ & X & _)).
      assert (tr' = tr) by congruence; subst. intros k0 i p new old Hl. destruct (proj1 (X i p new old)) as [_ [G _]]; eauto.
    - destruct (@transitions_exact _ Nat.eqb Nat.eqb_eq t Hf Hw) as (tr' & E' & (_ & _ & _ & X & _)).
      assert (tr' = tr) by congruence; subst. intros k0 i p new old Hl. destruct (proj1 (X i p new old)) as [G _]; eauto. }
  assert (Hlens : length (tr_persons tr) = length (tr_times tr) /\ length (tr_new tr) = length (tr_times tr) /\ length (tr_old tr) = length (tr_times tr)).
  { destruct ignore.
    - destruct (@transitions_exact_ignore _ Nat.eqb Nat.eqb_eq t Hf Hw) as (tr' & E' & (X1 & X2 & X3 & _)).
      assert (tr' = tr) by congruence; subst. auto.
    - destruct (@transitions_exact _ Nat.eqb Nat.eqb_eq t Hf Hw) as (tr' & E' & (X1 & X2 & X3 & _)).
      assert (tr' = tr) by congruence; subst. auto. }
  destruct Hlens as (L1 & L2 & L3).
  assert (Hline : forall k0, (k0 < length (tr_times tr))%nat -> exists i p new old d,
    line (tr_times tr) (tr_persons tr) (tr_new tr) (tr_old tr) k0 i p new old /\ at_ ds k0 d /\
    (i < width t)%nat /\ (new < k)%nat /\ (old < k)%nat /\ (Z.to_nat d < width t + 1)%nat).
  { intros k0 Hk0. destruct (lt_at _ (tr_times tr) k0 Hk0) as [i Hi]. destruct (lt_at _ (tr_persons tr) k0) as [p Hp]; [lia|].
    destruct (lt_at _ (tr_new tr) k0) as [new Hn]; [lia|]. destruct (lt_at _ (tr_old tr) k0) as [old Ho]; [lia|].
    destruct (lt_at _ ds k0) as [d Hd]; [lia|]. exists i, p, new, old, d.
    assert (Hl : line (tr_times tr) (tr_persons tr) (tr_new tr) (tr_old tr) k0 i p new old) by (repeat split; auto).
    destruct (Hex _ _ _ _ _ Hl) as [G1 G2]. split; auto. split; auto.
    split; [apply rectangular_full in Hf; eapply diary_lt; eauto|]. split; [eapply Hst; eauto|]. split; [eapply Hst; eauto|].
    destruct (Vd _ _ _ _ _ _ Hl Hd) as [V1 V2].
    destruct ignore.
    - destruct (Z_lt_ge_dec d (Z.of_nat (width t))) as [|Hge]; [lia|]. exfalso.
      assert (N : ~ lasts (width t) (rows t) p i new d) by (intro G; apply lasts_lt in G; auto; lia).
      assert (d = 0%Z); [|lia]. apply V2; auto; intro G; apply N, V1; auto.
    - specialize (V1 (or_introl eq_refl)). apply lasts_lt in V1; auto. lia. }
  assert (Ek : match labels with None => length (uniq Nat.compare (concat (rows t))) | Some k => k end = k).
  { destruct Hlab as [->|[-> H]]; auto. symmetry. apply distinct_uniq. auto. }
  unfold states_to_tpms_with_durations. rewrite E1. cbn [bind]. cbv zeta. rewrite Ek.
  rewrite assign3_counts.
  2:{ intros i j l H. unfold zip3 in H. apply in_combine_at in H. destruct H as (k0 & H & H3). 
      pose proof (at_lt _ _ _ _ H3) as Lk. destruct (Hline k0) as (i' & p & new & old & d & (A1 & A2 & A3 & A4) & A5 & B1 & B2 & B3 & B4); [lia|].
      assert (H1 : at_ (tr_times tr) k0 i /\ at_ (tr_old tr) k0 j).
      { clear - H. revert H. generalize (tr_times tr), (tr_old tr). intros xs. revert k0. induction xs as [|x xs IH]; intros k0 [|y ys] H; try (destruct k0; discriminate).
        destruct k0; simpl in H; [injection H as -> ->; split; reflexivity|]. apply (IH k0 ys H). }
      destruct H1 as [H1 H2]. unfold at_ in *. assert (i = i') by congruence. assert (j = old) by congruence. assert (l = new) by congruence. subst. auto. }
  cbn [bind]. rewrite assign3_counts.
  2:{ intros i j l H. unfold zip3 in H. apply in_combine_at in H. destruct H as (k0 & H & H3). 
      apply at_map in H3. destruct H3 as (d0 & H3 & ->).
      pose proof (at_lt _ _ _ _ H3) as Lk. destruct (Hline k0) as (i' & p & new & old & d & (A1 & A2 & A3 & A4) & A5 & B1 & B2 & B3 & B4); [lia|].
      assert (H1 : at_ (tr_times tr) k0 i /\ at_ (tr_new tr) k0 j).
      { clear - H. revert H. generalize (tr_times tr), (tr_new tr). intros xs. revert k0. induction xs as [|x xs IH]; intros k0 [|y ys] H; try (destruct k0; discriminate).
        destruct k0; simpl in H; [injection H as -> ->; split; reflexivity|]. apply (IH k0 ys H). }
      destruct H1 as [H1 H2]. unfold at_ in *. assert (i = i') by congruence. assert (j = new) by congruence. assert (d0 = d) by congruence. subst. auto. }
  cbn [bind]. rewrite assign4_counts.
  2:{ intros i j l g H. unfold zip4, zip3 in H. apply in_combine_at in H. destruct H as (k0 & H & H3). 
      apply at_map in H3. destruct H3 as (d0 & H3 & ->).
      pose proof (at_lt _ _ _ _ H3) as Lk. destruct (Hline k0) as (i' & p & new & old & d & (A1 & A2 & A3 & A4) & A5 & B1 & B2 & B3 & B4); [lia|].
      assert (G : forall X Y (xs : list X) (ys : list Y) k0 x y, at_ (combine xs ys) k0 (x, y) -> at_ xs k0 x /\ at_ ys k0 y).
      { clear. induction xs as [|x xs IH]; intros [|y ys] k0 x0 y0 H; try (destruct k0; discriminate).
        destruct k0; simpl in H; [injection H as -> ->; split; reflexivity|]. apply (IH ys k0 x0 y0 H). }
      apply G in H. destruct H as [H H2]. apply G in H. destruct H as [H1 H4].
      unfold at_ in *. assert (i = i') by congruence. assert (j = old) by congruence. assert (l = new) by congruence. assert (d0 = d) by congruence. subst. auto. }
  cbn [bind]. unfold tab3 at 1 2, tab4 at 1. repeat (rewrite first_tab by auto; cbn [bind]).
  set (X := lines3 (tr_times tr) (tr_old tr) (tr_new tr)). set (Y := lines3 (tr_times tr) (tr_new tr) (map Z.to_nat ds)).
  set (Z0 := lines4 (tr_times tr) (tr_old tr) (tr_new tr) (map Z.to_nat ds)).
  change (tab (width t) (fun i => tab k (fun j => tab k (X (source algo (width t) i) j)))) with (tab3 (width t) k k (fun i => X (source algo (width t) i))).
  change (tab (width t) (fun i => tab k (fun j => tab (width t + 1) (Y (source algo (width t) i) j)))) with (tab3 (width t) k (width t + 1) (fun i => Y (source algo (width t) i))).
  change (tab (width t) (fun i => tab3 k k (width t + 1) (Z0 (source algo (width t) i)))) with (tab4 (width t) k k (width t + 1) (fun i => Z0 (source algo (width t) i))).
  rewrite full_days_tab; auto; [|intros i Hi; apply in_seq in Hi; lia|apply seq_NoDup]. cbn [bind].
  assert (Hin : forall j, (j < k)%nat -> existsb (Nat.eqb j) (seq 0 k) = true).
  { intros j Hj. apply existsb_exists. exists j. rewrite Nat.eqb_refl. split; auto. apply in_seq. lia. }
  destruct (@pdfs3_tab (width t) k (width t + 1) (stay3 t (fun _ => width t) (seq 0 k) (fun i => Y (source algo (width t) i)))) as (dur & D1 & D2 & D3).
  { lia. } { intros. unfold stay3. destruct (_ && _); apply qn_nonneg. }
  rewrite D1. cbn [bind].
  destruct (@pdfs4_tab (width t) k k (width t + 1) (stay4 t (seq 0 k) (fun i => Z0 (source algo (width t) i)))) as (durp & P1 & P2 & P3).
  { lia. } { intros. unfold stay4. destruct (_ && _); apply qn_nonneg. }
  rewrite P1. cbn [bind].
  destruct (@mapM_tab _ _ (width t) normalise (fun i => tab k (fun a => tab k (stay3 t (fun j => j) (seq 0 k) (fun i => X (source algo (width t) i)) i a)))
    (fun i m => length m = k /\ forall a row, at_ m a row -> shares a k (stay3 t (fun j => j) (seq 0 k) (fun i => X (source algo (width t) i)) i a) row)) as (tpm & T1 & T2 & T3).
  { intros i Hi. apply normalise_tab. intros. unfold stay3. destruct (_ && _); apply qn_nonneg. }
  unfold tab3 at 1. rewrite T1. cbn [bind].
  exists tr, ds, tpm, dur, durp. split; auto. split; auto. split; auto. split; auto. split; auto. split; [|split].
  - intros i m Hm. destruct (T3 i m Hm) as [M1 M2]. split; auto. intros a row Hrow.
    assert (Hak : (a < k)%nat) by (rewrite <- M1; eapply at_lt; eauto).
    eapply shares_ext; [|apply M2; eauto]. intros b _. unfold stay3. rewrite Hin by auto. rewrite andb_true_r. reflexivity.
  - intros i m Hm. destruct (D3 i m Hm) as [M1 M2]. split; auto. intros b pdf Hp.
    assert (Hak : (b < k)%nat) by (rewrite <- M1; eapply at_lt; eauto).
    eapply shares_ext; [|apply M2; eauto]. intros d _. unfold stay3. rewrite Hin by auto. rewrite andb_true_r. reflexivity.
  - intros i m Hm. destruct (P3 i m Hm) as [M1 M2]. split; auto. intros a m' Ha'. destruct (M2 a m' Ha') as [M3 M4]. split; auto. intros b pdf Hp.
    assert (Hak : (a < k)%nat) by (rewrite <- M1; eapply at_lt; eauto).
    eapply shares_ext; [|apply M4; eauto]. intros d _. unfold stay4. rewrite Hin by auto. rewrite andb_true_r. reflexivity.
Qed.

Lemma list_max_lt : forall n l, l <> [] -> (forall y, In y l -> (y < n)%nat) -> (list_max_nat l < n)%nat.
Proof.
  intros n l. induction l as [|z l IH]; intros Hne Hl; [congruence|]. destruct l as [|y l].
  - specialize (Hl z (or_introl eq_refl)). simpl in *. lia.
  - assert (list_max_nat (y :: l) < n)%nat by (apply IH; [congruence|intros; apply Hl; right; auto]).
    specialize (Hl z (or_introl eq_refl)). simpl in *. lia.
Qed.

Lemma tpms_spec_max : forall algo labels t n, full (width t) (rows t) -> (0 < width t)%nat -> algo <> AlgoUnknown ->
  (labels = Some n \/ labels = None /\ exists p i x, diary (rows t) p i x /\ n = S x) ->
  (forall p i x, diary (rows t) p i x -> (x < n)%nat) ->
  exists ms, states_to_tpms algo labels t = Ok ms /\ length ms = width t /\
    (forall i m, at_ ms i m -> frequencies n (rows t) (before (width t) (source algo (width t) i)) (source algo (width t) i) m).
Proof.
  intros algo labels t n Hf Hw Ha Hl Hs. apply tpms_spec; auto. destruct Hl as [->|(-> & p & i & x & (r & Hp & Hi) & ->)]; auto. right.
  assert (Hin : In x (concat (rows t))) by (apply concat_in; exists r; split; eapply at_in; eauto).
  split; auto. split; [intro E; rewrite E in Hp; destruct p; discriminate|]. f_equal. apply Nat.le_antisymm; [apply list_max_nat_ge; auto|].
  assert (list_max_nat (concat (rows t)) < S x)%nat; [|lia].
  apply list_max_lt; [intro E; rewrite E in Hin; destruct Hin|]. intros y Hy. apply concat_in in Hy. destruct Hy as (r' & H1 & H2).
  apply in_at in H1, H2. destruct H1 as [q Hq], H2 as [j Hj]. apply (Hs q j y). exists r'; auto.
Qed.
