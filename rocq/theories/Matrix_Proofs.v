(** * Facts about two dimensional arrays. *)

From Coq Require Import String List ZArith QArith Bool Arith Lia.
From Verif Require Import Prelude PreludeFacts SpecBase SpecBaseFacts Parse_Model Parse_TpmProofs Parse_GroupProofs.
From Verif Require Import Appliance_Model Appliance_Spec.
Import ListNotations.

Open Scope nat_scope.

Lemma vget_ok : forall A (l : list A) i x, vget l i = Ok x <-> at_ l i x.
Proof.
  intros A l i x. unfold vget, at_. destruct (nth_error l i); split; intro H; try discriminate; congruence.
Qed.

Lemma mget_ok : forall A (m : list (list A)) h j x, mget m h j = Ok x <-> at2 m h j x.
Proof.
  intros A m h j x. unfold mget, at2, at_. split.
  - destruct (nth_error m h) as [r|]; [|discriminate]. destruct (nth_error r j) eqn:E; [|discriminate].
    intros [= ->]. eauto.
  - intros (r & -> & ->). reflexivity.
Qed.

Lemma at2_fun : forall A (m : list (list A)) h j x y, at2 m h j x -> at2 m h j y -> x = y.
Proof. intros A m h j x y (r & H1 & H2) (r' & H3 & H4). unfold at_ in *. congruence. Qed.

Lemma shaped_at2 : forall A n k (m : list (list A)) h j, shaped n k m -> h < n -> j < k -> exists x, at2 m h j x.
Proof.
  intros A n k m h j [H1 H2] Hh Hj. destruct (lt_at _ m h) as [r Hr]; [lia|].
  destruct (lt_at _ r j) as [x Hx]; [rewrite (H2 _ _ Hr); lia|]. exists x, r. auto.
Qed.

Lemma at2_shaped : forall A n k (m : list (list A)) h j x, shaped n k m -> at2 m h j x -> h < n /\ j < k.
Proof.
  intros A n k m h j x [H1 H2] (r & Hr & Hx). apply at_lt in Hx. rewrite (H2 _ _ Hr) in Hx. apply at_lt in Hr. lia.
Qed.

(** ** Elementwise operations *)

Lemma at_map : forall A B (f : A -> B) l i y, at_ (map f l) i y <-> exists x, at_ l i x /\ y = f x.
Proof.
  intros A B f l i y. unfold at_. rewrite nth_error_map. destruct (nth_error l i); simpl; split.
  - intros [= <-]. eauto.
  - intros (x & [= <-] & ->). reflexivity.
  - discriminate.
  - intros (x & [=] & _).
Qed.

Lemma at_map2 : forall A B C (f : A -> B -> C) l m i z,
  at_ (map2 f l m) i z <-> exists x y, at_ l i x /\ at_ m i y /\ z = f x y.
Proof.
  intros A B C f l. unfold at_. induction l as [|a l IH]; intros [|b m] [|i] z; simpl; try (split; [discriminate|]; intros (x & y & H1 & H2 & _); discriminate).
  - split; [intros [= <-]; eauto 6|]. intros (x & y & [= ->] & [= ->] & ->). reflexivity.
  - apply IH.
Qed.

Lemma at2_map : forall A B (f : A -> B) m h j y, at2 (map (map f) m) h j y <-> exists x, at2 m h j x /\ y = f x.
Proof.
  intros. unfold at2. split.
  - intros (r & Hr & Hx). apply at_map in Hr. destruct Hr as (r0 & Hr & ->). apply at_map in Hx. destruct Hx as (x & Hx & ->).
    eauto 6.
  - intros (x & (r & Hr & Hx) & ->). exists (map f r). split; apply at_map; eauto.
Qed.

Lemma at2_mmap2 : forall A B C (f : A -> B -> C) m n h j z,
  at2 (mmap2 f m n) h j z <-> exists x y, at2 m h j x /\ at2 n h j y /\ z = f x y.
Proof.
  intros. unfold at2, mmap2. split.
  - intros (r & Hr & Hz). apply at_map2 in Hr. destruct Hr as (r1 & r2 & H1 & H2 & ->).
    apply at_map2 in Hz. destruct Hz as (x & y & H3 & H4 & ->). exists x, y. eauto 8.
  - intros (x & y & (r1 & H1 & H2) & (r2 & H3 & H4) & ->). exists (map2 f r1 r2). split; apply at_map2; eauto 8.
Qed.

Lemma at2_mrow : forall A B C (f : A -> B -> C) m row h j z,
  at2 (mrow f m row) h j z <-> exists x y, at2 m h j x /\ at_ row j y /\ z = f x y.
Proof.
  intros. unfold at2, mrow. split.
  - intros (r & Hr & Hz). apply at_map in Hr. destruct Hr as (r1 & H1 & ->).
    apply at_map2 in Hz. destruct Hz as (x & y & H3 & H4 & ->). exists x, y. eauto 8.
  - intros (x & y & (r1 & H1 & H2) & H3 & ->). exists (map2 f r1 row). split; [apply at_map|apply at_map2]; eauto 8.
Qed.

Lemma shaped_map : forall A B (f : A -> B) n k m, shaped n k m -> shaped n k (map (map f) m).
Proof.
  intros A B f n k m [H1 H2]. split; [rewrite map_length; auto|]. intros h row H. apply at_map in H. destruct H as (r & H & ->).
  rewrite map_length. eauto.
Qed.

Lemma shaped_mmap2 : forall A B C (f : A -> B -> C) n k m m', shaped n k m -> shaped n k m' -> shaped n k (mmap2 f m m').
Proof.
  intros A B C f n k m m' [H1 H2] [H3 H4]. unfold mmap2. split; [rewrite map2_length; lia|]. intros h row H. apply at_map2 in H.
  destruct H as (r & r' & Hr & Hr' & ->). rewrite map2_length, (H2 _ _ Hr), (H4 _ _ Hr'). lia.
Qed.

Lemma shaped_mrow : forall A B C (f : A -> B -> C) n k m row, shaped n k m -> length row = k -> shaped n k (mrow f m row).
Proof.
  intros A B C f n k m row [H1 H2] Hl. unfold mrow. split; [rewrite map_length; auto|]. intros h r H. apply at_map in H.
  destruct H as (r0 & H & ->). rewrite map2_length, (H2 _ _ H). lia.
Qed.

(** ** Positions of a mask *)

Lemma where2_from_in : forall m i h j, In (h, j) (where2_from i m) <-> exists h', h = i + h' /\ at2 m h' j true.
Proof.
  induction m as [|r m IH]; intros i h j; simpl.
  - split; [tauto|]. intros (h' & _ & r & H & _). destruct h'; discriminate.
  - rewrite in_app_iff, in_map_iff, IH. split.
    + intros [(p & [= <- <-] & Hp)|(h' & -> & r' & H1 & H2)].
      * exists 0. split; [lia|]. exists r. split; [reflexivity|]. now apply where_true_in.
      * exists (S h'). split; [lia|]. exists r'. auto.
    + intros ([|h'] & -> & r' & H1 & H2).
      * left. unfold at_ in H1. simpl in H1. injection H1 as <-. exists j. split; [f_equal; lia|]. now apply where_true_in.
      * right. exists h'. split; [lia|]. exists r'. auto.
Qed.

Lemma where2_in : forall m h j, In (h, j) (where2 m) <-> at2 m h j true.
Proof.
  intros. unfold where2. rewrite where2_from_in. split.
  - intros (h' & E & H). simpl in E. now subst.
  - intro H. exists h. auto.
Qed.

(** ** Assignments *)

Lemma set2_ok : forall A k (v : A) m m', set2 k v m = Ok m' ->
  at2 m' (fst k) (snd k) v /\
  (forall h j x, (h, j) <> k -> (at2 m' h j x <-> at2 m h j x)) /\
  (forall n c, shaped n c m -> shaped n c m').
Proof.
  intros A [h0 j0] v m m' H. unfold set2 in H. simpl in *. destruct (@upd_ok _ _ _ _ _ H) as (r & r' & H1 & H2 & H3 & H4 & H5).
  unfold set1 in H2. destruct (@upd_ok _ _ _ _ _ H2) as (y & y' & G1 & G2 & G3 & G4 & G5). injection G2 as <-.
  split; [exists r'; auto|]. split.
  - intros h j x Hne. unfold at2, at_. destruct (Nat.eq_dec h h0) as [->|Hh].
    + assert (Hj : j <> j0) by congruence. rewrite H3, H1. split; intros (r1 & [= <-] & E).
      * exists r. rewrite <- (G5 j) by auto. auto.
      * exists r'. rewrite (G5 j) by auto. auto.
    + rewrite (H5 h Hh). tauto.
  - intros n c [S1 S2]. split; [lia|]. intros h row Hr. destruct (Nat.eq_dec h h0) as [->|Hh].
    + unfold at_ in Hr. rewrite H3 in Hr. injection Hr as <-. rewrite G4. exact (S2 h0 r H1).
    + unfold at_ in Hr. rewrite (H5 h Hh) in Hr. exact (S2 h row Hr).
Qed.

Lemma mput_ok : forall A kvs (m m' : list (list A)), mput kvs m = Ok m' ->
  (forall h j, (exists v, In ((h, j), v) kvs) -> exists v, In ((h, j), v) kvs /\ at2 m' h j v) /\
  (forall h j x, ~ In (h, j) (map fst kvs) -> (at2 m' h j x <-> at2 m h j x)) /\
  (forall n c, shaped n c m -> shaped n c m').
Proof.
  induction kvs as [|[k v] t IH]; intros m m' H; simpl in H.
  - injection H as <-. split; [intros h j (v & [])|]. split; [tauto|auto].
  - destruct (set2 k v m) as [m1|] eqn:E; simpl in H; [|discriminate].
    destruct (set2_ok _ _ _ _ _ E) as (E1 & E2 & E3). destruct (IH _ _ H) as (I1 & I2 & I3).
    split; [|split].
    + intros h j (w & Hw). destruct (in_dec (fun a b : nat * nat => ltac:(decide equality; apply Nat.eq_dec)) (h, j) (map fst t)) as [Hin|Hnot].
      * apply in_map_iff in Hin. destruct Hin as ([k' w'] & E' & Hw'). simpl in E'. subst k'.
        destruct (I1 h j) as (x & Hx & Hat); [eauto|]. exists x. simpl. auto.
      * destruct Hw as [[= -> <-]|Hw].
        -- exists v. split; [left; reflexivity|]. apply I2; auto.
        -- exfalso. apply Hnot. apply in_map_iff. exists ((h, j), w). auto.
    + intros h j x Hn. simpl in Hn. rewrite I2 by tauto. apply E2. intros E0. apply Hn. left. symmetry. exact E0.
    + intros n c Hs. eauto.
Qed.

Lemma mput_total : forall A kvs (m : list (list A)) n c, shaped n c m ->
  (forall h j v, In ((h, j), v) kvs -> h < n /\ j < c) -> exists m', mput kvs m = Ok m'.
Proof.
  induction kvs as [|[[h j] v] t IH]; intros m n c Hs Hin; simpl; [eauto|].
  destruct (Hin h j v (or_introl eq_refl)) as [Hh Hj].
  destruct (shaped_at2 _ _ _ _ _ _ Hs Hh Hj) as (x & r & Hr & Hx).
  destruct (@upd_total _ j (fun _ => Ok v) r x v Hx eq_refl) as [r' Er].
  destruct (@upd_total _ h (set1 j v) m r r' Hr Er) as [m1 E1].
  unfold set2. simpl. rewrite E1. simpl. apply (IH m1 n c).
  - destruct (set2_ok _ (h, j) v m m1 E1) as (_ & _ & S). auto.
  - intros. apply (Hin h0 j0 v0). right. assumption.
Qed.

(** ** Combining positions with computed values *)

Lemma combine_in_mapM : forall A B (f : A -> result B) l out k v, mapM f l = Ok out ->
  In (k, v) (combine l out) -> f k = Ok v /\ In k l.
Proof.
  intros A B f. induction l as [|a l IH]; intros out k v H; simpl in H.
  - injection H as <-. intros [].
  - destruct (f a) eqn:E; simpl in H; [|discriminate]. destruct (mapM f l) eqn:El; simpl in H; [|discriminate].
    injection H as <-. intros [[= -> ->]|Hin]; [auto with datatypes|]. destruct (IH _ _ _ eq_refl Hin). auto with datatypes.
Qed.

Lemma combine_keys : forall A B (f : A -> result B) l out, mapM f l = Ok out -> map fst (combine l out) = l.
Proof.
  intros A B f. induction l as [|a l IH]; intros out H; simpl in H.
  - injection H as <-. reflexivity.
  - destruct (f a) eqn:E; simpl in H; [|discriminate]. destruct (mapM f l) eqn:El; simpl in H; [|discriminate].
    injection H as <-. simpl. f_equal. eauto.
Qed.

Lemma in_keys_combine : forall A B (l : list A) (out : list B) k, In k (map fst (combine l out)) -> exists v, In (k, v) (combine l out).
Proof. intros A B l out k H. apply in_map_iff in H. destruct H as ([k' v] & <- & H). eauto. Qed.
