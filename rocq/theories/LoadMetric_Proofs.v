(** * Proofs about the load metrics. *)

From Coq Require Import List ZArith QArith Qabs Qfield Bool Lia Lqa Permutation.
From Verif Require Import Prelude PreludeFacts SpecBase SpecBaseFacts Parse_Model Parse_TpmProofs Sampling_Proofs LoadMetric_Model LoadMetric_Spec.
Import ListNotations.

Open Scope Q_scope.

(** ** Maxima *)
Lemma q_max_spec : forall a b, a <= q_max a b /\ b <= q_max a b /\ (q_max a b = a \/ q_max a b = b).
Proof. intros a b. unfold q_max. destruct (Qle_bool a b) eqn:E; [apply Qleb_le in E|apply Qleb_gt in E]; repeat split; auto; lra. Qed.

Lemma fold_max : forall l x, let m := fold_left q_max l x in x <= m /\ (forall y, In y l -> y <= m) /\ (m = x \/ In m l).
Proof.
  induction l as [|y l IH]; intros x m; subst m; simpl; [split; [lra|]; split; [intros y []|auto]|].
  destruct (IH (q_max x y)) as (A & B & C). destruct (q_max_spec x y) as (D & E & F). split; [lra|]. split.
  - intros z [<-|Hz]; [lra|auto].
  - destruct C as [C|C]; [|auto]. rewrite C. destruct F as [->| ->]; auto.
Qed.

Lemma np_max_spec : forall l, l <> [] -> exists m, np_max l = Ok m /\ peak l m.
Proof.
  intros [|x l] H; [congruence|]. simpl. eexists. split; [reflexivity|]. destruct (fold_max l x) as (A & B & C). split.
  - exists (fold_left q_max l x). split; [|reflexivity]. destruct C as [->|C]; [left; reflexivity|right; exact C].
  - intros y [<-|Hy]; auto.
Qed.

Lemma peak_unique : forall l m n, peak l m -> peak l n -> m == n.
Proof. intros l m n ((x & Hx & Ex) & A) ((y & Hy & Ey) & B). specialize (A y Hy). specialize (B x Hx). lra. Qed.

(** ** Tables *)
Lemma box_rect : forall w rs, box w rs -> rectangular (mkTable w rs) = true.
Proof. intros w rs H. unfold rectangular. apply forallb_forall. intros r Hr. apply Nat.eqb_eq, H, Hr. Qed.

Lemma aggregated_at : forall w rs, box w rs -> aggregated (mkTable w rs) = map (fun j => qsum (map (fun r => nth j r 0) rs)) (seq 0 w).
Proof.
  intros w rs H. unfold aggregated, columns. rewrite map_map. cbn [width]. apply map_ext_in. intros j Hj. apply in_seq in Hj.
  rewrite (column_map (mkTable w rs) 0); [reflexivity|apply box_rect, H|simpl; lia].
Qed.

Lemma together_qsum : forall rs j, together rs j == qsum (map (fun r => nth j r 0) rs).
Proof. intros. unfold together. rewrite (total_qsum (map (fun r => nth j r 0) rs)). reflexivity. Qed.

Lemma agg_peak : forall w rs, box w rs -> (0 < w)%nat -> exists m, np_max (aggregated (mkTable w rs)) = Ok m /\ peak_together w rs m.
Proof.
  intros w rs H Hw. rewrite aggregated_at by exact H.
  destruct (np_max_spec (map (fun j => qsum (map (fun r => nth j r 0) rs)) (seq 0 w))) as (m & Hm & (x & Hx & Ex) & P).
  { destruct w; [lia|discriminate]. }
  exists m. split; [exact Hm|]. split.
  - apply in_map_iff in Hx. destruct Hx as (j & <- & Hj). apply in_seq in Hj. exists j. split; [lia|]. rewrite together_qsum. exact Ex.
  - intros j Hj. rewrite together_qsum. apply P. apply in_map_iff. exists j. split; [reflexivity|]. apply in_seq. lia.
Qed.

Lemma max_loads_spec : forall w rs, box w rs -> (0 < w)%nat -> exists ms, mapM np_max rs = Ok ms /\ Forall2 peak rs ms.
Proof.
  induction rs as [|r rs IH]; intros H Hw; simpl; [exists []; split; [reflexivity|constructor]|].
  destruct (np_max_spec r) as (m & -> & P). { specialize (H r (or_introl eq_refl)). destruct r; [simpl in H; lia|discriminate]. }
  destruct IH as (ms & -> & F); auto. { intros x Hx; apply H; now right. } exists (m :: ms). split; [reflexivity|constructor; assumption].
Qed.

Lemma nth_in_box : forall w rs j r, box w rs -> In r rs -> (j < w)%nat -> In (nth j r 0) r.
Proof. intros w rs j r H Hr Hj. apply nth_In. rewrite (H r Hr). exact Hj. Qed.

Lemma sum_peaks_ge : forall w j rs ms, box w rs -> (j < w)%nat -> Forall2 peak rs ms -> together rs j <= qsum ms.
Proof.
  intros w j rs ms H Hj F. rewrite together_qsum. revert H. induction F as [|r m rs ms P F IH]; intro H; simpl; [lra|].
  assert (nth j r 0 <= m) by (apply P; eapply (nth_in_box w); [exact H|left; reflexivity|exact Hj]).
  specialize (IH ltac:(intros x Hx; apply H; now right)). lra.
Qed.

Lemma sum_peaks_eq : forall w j rs ms, box w rs -> (j < w)%nat -> Forall2 peak rs ms -> qsum ms <= together rs j ->
  forall r x, In r rs -> In x r -> x <= nth j r 0.
Proof.
  intros w j rs ms H Hj F. rewrite together_qsum. revert H. induction F as [|r m rs ms P F IH]; intros H L q x Hq Hx; simpl in *; [tauto|].
  assert (B : box w rs) by (intros y Hy; apply H; now right).
  assert (nth j r 0 <= m) by (apply P; eapply (nth_in_box w); [exact H|left; reflexivity|exact Hj]).
  pose proof (sum_peaks_ge w j rs ms B Hj F) as G. rewrite together_qsum in G.
  destruct Hq as [<-|Hq]; [destruct P as [_ P]; specialize (P x Hx); lra|]. apply (IH B); auto. lra.
Qed.

Lemma sum_peaks_conv : forall w j rs ms, box w rs -> (j < w)%nat -> Forall2 peak rs ms -> (forall r x, In r rs -> In x r -> x <= nth j r 0) ->
  qsum ms <= together rs j.
Proof.
  intros w j rs ms H Hj F. rewrite together_qsum. revert H. induction F as [|r m rs ms P F IH]; intros H L; simpl; [lra|].
  assert (m <= nth j r 0). { destruct P as ((x & Hx & Ex) & _). specialize (L r x (or_introl eq_refl) Hx). lra. }
  specialize (IH ltac:(intros x Hx; apply H; now right) ltac:(intros q x Hq Hx; apply L; [now right|exact Hx])). lra.
Qed.

Lemma sum_peaks_le : forall w rs ms a, box w rs -> Forall2 peak rs ms -> (forall r x, In r rs -> In x r -> 0 <= x) ->
  (forall j, (j < w)%nat -> together rs j <= a) -> 0 <= a -> qsum ms <= count_of (length rs) * a.
Proof.
  intros w rs ms a H F Pos A Pa.
  assert (K : forall r x, In r rs -> In x r -> x <= a).
  { intros r x Hr Hx. apply (In_nth _ _ 0) in Hx. destruct Hx as (j & Hj & <-). rewrite (H r Hr) in Hj. eapply Qle_trans; [|apply (A j Hj)].
    rewrite together_qsum. clear A F. induction rs as [|q rs IH]; [destruct Hr|]. simpl.
    assert (B : forall s, In s (q :: rs) -> 0 <= nth j s 0) by (intros s Hs; apply (Pos s _ Hs); eapply (nth_in_box w); eassumption).
    assert (S : 0 <= qsum (map (fun s => nth j s 0) rs)) by (apply qsum_nonneg, Forall_forall; intros y Hy; apply in_map_iff in Hy; destruct Hy as (s & <- & Hs); apply B; now right).
    destruct Hr as [<-|Hr]; [lra|]. assert (0 <= nth j q 0) by (apply B; now left).
    assert (nth j r 0 <= qsum (map (fun s => nth j s 0) rs)) by (apply IH; [intros y Hy; apply H; now right|intros y z Hy; apply Pos; now right|assumption..]). lra. }
  clear A Pos H. induction F as [|r m rs ms P F IH]; cbn [qsum fold_right length]; [change (count_of 0) with 0; lra|].
  assert (m <= a). { destruct P as ((x & Hx & Ex) & _). specialize (K r x (or_introl eq_refl) Hx). lra. }
  specialize (IH ltac:(intros q x Hq; apply K; now right)). unfold count_of in *. rewrite Nat2Z.inj_succ. unfold Z.succ. rewrite inject_Z_plus. change (inject_Z 1) with 1. lra.
Qed.

Lemma diversity_val : forall w rs, box w rs -> (0 < w)%nat -> exists ms a, Forall2 peak rs ms /\ peak_together w rs a /\
  diversity_factor (mkTable w rs) = Ok (q_div (qsum ms) a).
Proof.
  intros w rs H Hw. destruct (max_loads_spec w rs H Hw) as (ms & Em & F). destruct (agg_peak w rs H Hw) as (a & Ea & P).
  exists ms, a. split; [exact F|]. split; [exact P|]. unfold diversity_factor. cbn [rows]. rewrite Em. cbn [bind]. rewrite Ea. reflexivity.
Qed.

Lemma q_div_pos : forall a b, 0 < b -> q_div a b = Some (a / b).
Proof. intros a b H. unfold q_div. destruct (Qeq_bool b 0) eqn:E; [apply Qeq_bool_iff in E; lra|reflexivity]. Qed.

Lemma together_pos : forall w rs r x, box w rs -> (forall q y, In q rs -> In y q -> 0 <= y) -> In r rs -> In x r -> 0 < x ->
  exists j, (j < w)%nat /\ 0 < together rs j.
Proof.
  intros w rs r x H Pos Hr Hx Px. apply (In_nth _ _ 0) in Hx. destruct Hx as (j & Hj & E). rewrite (H r Hr) in Hj. exists j. split; [exact Hj|].
  rewrite together_qsum. clear - H Pos Hr Hj E Px. induction rs as [|q rs IH]; [destruct Hr|]. simpl.
  assert (B : forall s, In s (q :: rs) -> 0 <= nth j s 0) by (intros s Hs; apply (Pos s _ Hs); eapply (nth_in_box w); eassumption).
  assert (S : 0 <= qsum (map (fun s => nth j s 0) rs)) by (apply qsum_nonneg, Forall_forall; intros y Hy; apply in_map_iff in Hy; destruct Hy as (s & <- & Hs); apply B; now right).
  destruct Hr as [<-|Hr]; [rewrite E; lra|]. assert (0 <= nth j q 0) by (apply B; now left).
  assert (0 < qsum (map (fun s => nth j s 0) rs)) by (apply IH; [intros y Hy; apply H; now right|intros y z Hy; apply Pos; now right|assumption..]). lra.
Qed.

(** ** Sorting *)
Lemma q_insert_perm : forall l x, Permutation (q_insert x l) (x :: l).
Proof. induction l as [|y l IH]; intro x; simpl; [auto|]. destruct (Qle_bool x y); [auto|]. rewrite IH. apply perm_swap. Qed.

Lemma np_sort_perm : forall l, Permutation (np_sort l) l.
Proof. induction l as [|x l IH]; simpl; [auto|]. unfold np_sort in *. simpl. rewrite q_insert_perm, IH. reflexivity. Qed.

Inductive up : list Q -> Prop :=
| up_nil : up []
| up_cons : forall x l, (forall y, In y l -> x <= y) -> up l -> up (x :: l).

Lemma q_insert_up : forall l x, up l -> up (q_insert x l).
Proof.
  induction l as [|y l IH]; intros x H; simpl; [constructor; [intros y []|constructor]|]. inversion H as [|? ? A B]; subst.
  destruct (Qle_bool x y) eqn:E; [apply Qleb_le in E|apply Qleb_gt in E].
  - constructor; [|exact H]. intros z [<-|Hz]; [exact E|]. specialize (A z Hz). lra.
  - constructor; [|apply IH, B]. intros z Hz. apply (Permutation_in _ (q_insert_perm l x)) in Hz. destruct Hz as [<-|Hz]; [lra|auto].
Qed.

Lemma np_sort_up : forall l, up (np_sort l).
Proof. induction l as [|x l IH]; simpl; [constructor|]. apply q_insert_up, IH. Qed.

Lemma up_sorted : forall l, up l -> sorted_up l.
Proof.
  intros l H. induction H as [|x l A B IH]; intros i a b Ha Hb; [destruct i; discriminate|].
  destruct i as [|i]; [|exact (IH i a b Ha Hb)]. injection Ha as <-. apply A. apply (at_in _ l 0%nat). exact Hb.
Qed.

Inductive sup : list Q -> Prop :=
| sup_nil : sup []
| sup_cons : forall x l, (forall y, In y l -> x < y) -> sup l -> sup (x :: l).

Lemma uins_q : forall l x, sup l -> sup (uins Qcompare x l) /\ (forall y, In y (uins Qcompare x l) -> y = x \/ In y l) /\
  (forall y, y = x \/ In y l -> exists z, In z (uins Qcompare x l) /\ z == y).
Proof.
  induction l as [|y l IH]; intros x H; simpl.
  - split; [constructor; [intros y []|constructor]|]. split; [simpl; intuition|]. intros y [->|[]]. exists x. split; [simpl; auto|reflexivity].
  - inversion H as [|? ? A B]; subst. destruct (Qcompare x y) eqn:E.
    + apply Qeq_alt in E. split; [exact H|]. split; [simpl; intuition|]. intros z [->|Hz]; [exists y; split; [simpl; auto|symmetry; exact E]|exists z; split; [exact Hz|reflexivity]].
    + apply Qlt_alt in E. split; [constructor; [intros z [<-|Hz]; [exact E|specialize (A z Hz); lra]|exact H]|].
      split; [simpl; intuition|]. intros z [->|Hz]; [exists x|exists z]; split; simpl; auto; reflexivity.
    + apply Qgt_alt in E. destruct (IH x B) as (S1 & S2 & S3). split; [|split].
      * constructor; [|exact S1]. intros z Hz. destruct (S2 z Hz) as [->|Hz']; [exact E|auto].
      * intros z [<-|Hz]; [right; now left|]. destruct (S2 z Hz); [auto|right; now right].
      * intros z [->|[<-|Hz]].
        -- destruct (S3 x (or_introl eq_refl)) as (w & Hw & Ew). exists w. split; [now right|exact Ew].
        -- exists y. split; [now left|reflexivity].
        -- destruct (S3 z (or_intror Hz)) as (w & Hw & Ew). exists w. split; [now right|exact Ew].
Qed.

Lemma np_unique_spec : forall l, sup (np_unique l) /\ (forall y, In y (np_unique l) -> In y l) /\ (forall y, In y l -> exists z, In z (np_unique l) /\ z == y).
Proof.
  induction l as [|x l (A & B & C)]; simpl; [split; [constructor|]; split; intros y []|].
  destruct (uins_q (np_unique l) x A) as (D & E & F). unfold np_unique, uniq in *. simpl. split; [exact D|]. split.
  - intros y Hy. destruct (E y Hy); [left; congruence|right; auto].
  - intros y [<-|Hy]; [apply F; now left|]. destruct (C y Hy) as (z & Hz & Ez). destruct (F z (or_intror Hz)) as (w & Hw & Ew). exists w. split; [exact Hw|rewrite Ew; exact Ez].
Qed.

Lemma sort_sup : forall l, sup l -> np_sort l = l.
Proof.
  intros l H. induction H as [|x l A B IH]; [reflexivity|]. unfold np_sort in *. simpl. rewrite IH. destruct l as [|y l]; [reflexivity|]. simpl.
  assert (E : Qle_bool x y = true) by (apply Qleb_le; specialize (A y (or_introl eq_refl)); lra). rewrite E. reflexivity.
Qed.

Lemma sup_strict : forall l, sup l -> strictly_up l.
Proof.
  intros l H. induction H as [|x l A B IH]; intros i a b Ha Hb; [destruct i; discriminate|].
  destruct i as [|i]; [|exact (IH i a b Ha Hb)]. injection Ha as <-. apply A. apply (at_in _ l 0%nat). exact Hb.
Qed.

(** ** Counting *)
Lemma count_how_many : forall (P : Q -> Prop) f l, (forall x, In x l -> (f x = true <-> P x)) -> how_many P l (count_true (map f l)).
Proof.
  intros P f l. induction l as [|x l IH]; intro H; simpl; [constructor|]. unfold count_true in *. simpl. specialize (IH ltac:(intros; apply H; now right)).
  destruct (f x) eqn:E; simpl; [apply hm_yes|apply hm_no]; auto; [apply H; [now left|exact E]|]. intro Hp. apply H in Hp; [congruence|now left].
Qed.

Lemma how_many_unique : forall P l n m, how_many P l n -> how_many P l m -> n = m.
Proof. intros P l n m H. revert m. induction H; intros m Hm; inversion Hm; subst; try tauto; auto. Qed.

Lemma how_many_mono : forall (P R : Q -> Prop) l n m, (forall x, In x l -> P x -> R x) -> how_many P l n -> how_many R l m -> (n <= m)%nat.
Proof.
  intros P R l n m H Hn. revert m. induction Hn as [|x l n Hp Hn IH|x l n Hp Hn IH]; intros m Hm; inversion Hm as [|? ? ? Hr Hm'|? ? ? Hr Hm']; subst; try lia.
  - assert (n <= n0)%nat by (apply IH; auto; intros; apply H; auto; now right). lia.
  - exfalso. apply Hr, H; [now left|exact Hp].
  - assert (n <= n0)%nat by (apply IH; auto; intros; apply H; auto; now right). lia.
  - apply IH; auto. intros; apply H; auto; now right.
Qed.

Lemma how_many_all : forall (P : Q -> Prop) l, (forall x, In x l -> P x) -> how_many P l (length l).
Proof. intros P l. induction l as [|x l IH]; intro H; [constructor|]. simpl. apply hm_yes; [apply H; now left|apply IH; intros; apply H; now right]. Qed.

(** ** Histograms *)
Lemma at_seq' : forall n s k, (k < n)%nat -> nth_error (seq s n) k = Some (s + k)%nat.
Proof.
  induction n as [|n IH]; intros s k H; [lia|]. destruct k as [|k]; simpl; [f_equal; lia|]. rewrite IH by lia. f_equal. lia.
Qed.
Section Histogram.
  Variables (lo hi : Q) (bins : nat).
  Hypothesis (Hb : (0 < bins)%nat) (Hlh : lo < hi).

  Definition width1 : Q := (hi - lo) / inject_Z (Z.of_nat bins).
  Definition edge (i : nat) : Q := lo + inject_Z (Z.of_nat i) * width1.

  Lemma bins_pos : 0 < inject_Z (Z.of_nat bins).
  Proof. change 0 with (inject_Z 0). rewrite <- Zlt_Qlt. lia. Qed.

  Lemma width1_pos : 0 < width1.
  Proof. unfold width1. apply Qlt_shift_div_l; [apply bins_pos|]. lra. Qed.

  Lemma edge_0 : edge 0 == lo.
  Proof. unfold edge. change (inject_Z (Z.of_nat 0)) with 0. ring. Qed.

  Lemma edge_S : forall i, edge (S i) == edge i + width1.
  Proof. intro i. unfold edge. rewrite Nat2Z.inj_succ. unfold Z.succ. rewrite inject_Z_plus. change (inject_Z 1) with 1. ring. Qed.

  Lemma edge_last : edge bins == hi.
  Proof. unfold edge, width1. pose proof bins_pos. field. lra. Qed.

  Lemma edge_mono : forall i j, (i <= j)%nat -> edge i <= edge j.
  Proof. intros i j H. induction H; [lra|]. rewrite edge_S. pose proof width1_pos. lra. Qed.

  Lemma edges_nth : forall i, (i <= bins)%nat -> nth_error (edges_of lo hi bins) i = Some (edge i).
  Proof.
    intros i Hi. unfold edges_of. rewrite nth_error_map.
    rewrite at_seq' by lia. reflexivity.
  Qed.

  (** Counting the values below an edge; the last bin is closed. *)
  Definition below (i : nat) (v : Q) : bool := if (i =? bins)%nat then Qle_bool v (edge i) else Qltb v (edge i).
  Definition cnt (f : Q -> bool) (l : list Q) : nat := count_true (map f l).

  Lemma below_0 : forall v, lo <= v -> below 0 v = false.
  Proof.
    intros v H. unfold below. destruct (Nat.eqb_spec 0 bins); [lia|]. apply Qltb_ge. rewrite edge_0. exact H.
  Qed.

  Lemma below_S : forall i v, lo <= v -> (i < bins)%nat -> below (S i) v = below i v || in_bin (edges_of lo hi bins) bins i v /\
    below i v && in_bin (edges_of lo hi bins) bins i v = false.
  Proof.
    intros i v Hv Hi. unfold in_bin. rewrite !edges_nth by lia. unfold below. destruct (Nat.eqb_spec i bins); [lia|].
    assert (W := width1_pos). pose proof (edge_S i) as ES.
    assert (X : Qle_bool (edge i) v = negb (Qltb v (edge i))) by (unfold Qltb; rewrite negb_involutive; reflexivity). rewrite X.
    destruct (Qltb v (edge i)) eqn:E1; cbn [negb andb orb]; [|split; reflexivity]. split; [|reflexivity]. apply Qltb_lt in E1.
    destruct (Nat.eqb_spec (S i) bins); [apply Qleb_le|apply Qltb_lt]; lra.
  Qed.

  Lemma cnt_split : forall (f g h : Q -> bool) l, (forall v, In v l -> h v = f v || g v /\ f v && g v = false) -> cnt h l = (cnt f l + cnt g l)%nat.
  Proof.
    intros f g h l. unfold cnt, count_true. induction l as [|v l IH]; intro H; simpl; [reflexivity|].
    destruct (H v (or_introl eq_refl)) as [A B]. specialize (IH ltac:(intros; apply H; now right)).
    destruct (f v), (g v); cbn in A, B; rewrite A; simpl; try discriminate; lia.
  Qed.

  Lemma hist_prefix : forall l i, (forall v, In v l -> lo <= v) -> (i <= bins)%nat ->
    list_sum (map (fun k => cnt (in_bin (edges_of lo hi bins) bins k) l) (seq 0 i)) = cnt (below i) l.
  Proof.
    intros l i Hl. induction i as [|i IH]; intro Hi.
    - simpl. unfold cnt, count_true. symmetry. induction l as [|v l IHl]; [reflexivity|]. simpl. rewrite below_0 by (apply Hl; now left).
      apply IHl. intros; apply Hl; now right.
    - rewrite seq_S, map_app, list_sum_app. cbn [map list_sum Nat.add]. rewrite IH by lia. simpl. rewrite Nat.add_0_r. symmetry. apply cnt_split.
      intros v Hv. apply below_S; [apply Hl, Hv|lia].
  Qed.

  Lemma below_bins : forall l, (forall v, In v l -> v <= hi) -> cnt (below bins) l = length l.
  Proof.
    intros l H. unfold cnt, count_true, below. rewrite Nat.eqb_refl. induction l as [|v l IH]; [reflexivity|]. simpl.
    assert (E : Qle_bool v (edge bins) = true) by (apply Qleb_le; rewrite edge_last; apply H; now left). rewrite E. simpl. f_equal. apply IH. intros; apply H; now right.
  Qed.
End Histogram.

Lemma cnt_how_many : forall lo hi bins i l, how_many (fun v => if (i =? bins)%nat then v <= edge lo hi bins i else v < edge lo hi bins i) l (cnt (below lo hi bins i) l).
Proof.
  intros. apply count_how_many. intros v _. unfold below. destruct (i =? bins)%nat; [apply Qleb_le|apply Qltb_lt].
Qed.

Lemma firstn_map_seq : forall A (f : nat -> A) n i, (i <= n)%nat -> firstn i (map f (seq 0 n)) = map f (seq 0 i).
Proof.
  intros A f n i H. rewrite firstn_map. f_equal. revert i H. generalize 0%nat. induction n as [|n IH]; intros s i H; [destruct i; [reflexivity|lia]|].
  destruct i as [|i]; [reflexivity|]. simpl. f_equal. apply IH. lia.
Qed.

Lemma qsum_counts : forall l n, qsum (map (fun c => inject_Z (Z.of_nat c) / n) l) == inject_Z (Z.of_nat (list_sum l)) / n.
Proof.
  induction l as [|c l IH]; intro n; simpl; [unfold Qdiv; change (inject_Z 0) with 0; ring|].
  change (fold_right Nat.add 0%nat l) with (list_sum l). rewrite IH. rewrite Nat2Z.inj_add, inject_Z_plus. unfold Qdiv. ring.
Qed.

Lemma as_cdf_spec : forall hist, (0 < list_sum hist)%nat -> exists cdf, as_cdf hist = map Some cdf /\ length cdf = length hist /\
  forall i c, at_ cdf i c -> c == count_of (list_sum (firstn (S i) hist)) / count_of (list_sum hist).
Proof.
  intros hist H. unfold as_cdf. destruct (Qeq_bool (inject_Z (Z.of_nat (list_sum hist))) 0) eqn:E.
  - exfalso. apply Qeq_bool_iff in E. unfold Qeq in E. simpl in E. lia.
  - eexists. split; [reflexivity|]. split; [rewrite cumsum_length, map_length; reflexivity|]. intros i c Hc.
    apply cumsum_nth_eq in Hc. destruct Hc as [_ Hc]. rewrite Hc. rewrite firstn_map. apply qsum_counts.
Qed.

Lemma hist_len : forall vals bins h, length (fst (histogram vals bins h)) = bins /\ length (snd (histogram vals bins h)) = S bins.
Proof. intros. unfold histogram. destruct (Qeq_bool h 0); cbn [fst snd]; unfold edges_of; rewrite !map_length, !seq_length; auto. Qed.

(** The cumulated histogram of values between 0 and [hi]. *)
Lemma histogram_cdf : forall vals bins hi, (0 < bins)%nat -> vals <> [] -> 0 <= hi -> (forall v, In v vals -> 0 <= v <= hi) ->
  exists cdf edges, histogram vals bins hi = (fst (histogram vals bins hi), edges) /\ as_cdf (fst (histogram vals bins hi)) = map Some cdf /\
    length cdf = bins /\ length edges = S bins /\ strictly_up edges /\
    (forall i c e, at_ cdf i c -> at_ edges (S i) e -> exists n, how_many (fun v => if (S i =? bins)%nat then v <= e else v < e) vals n /\ c == count_of n / count_of (length vals)) /\
    (forall v a b, In v vals -> at_ edges 0 a -> at_ edges bins b -> a <= v <= b).
Proof.
  intros vals bins hi Hb Hne Hhi Hv.
  assert (X : exists lo hi', lo < hi' /\ (forall v, In v vals -> lo <= v <= hi') /\ histogram vals bins hi =
     (map (fun k => cnt (in_bin (edges_of lo hi' bins) bins k) vals) (seq 0 bins), edges_of lo hi' bins)).
  { unfold histogram. destruct (Qeq_bool hi 0) eqn:E.
    - apply Qeq_bool_iff in E. exists (- (1 # 2)), (1 # 2). split; [lra|]. split; [|reflexivity]. intros v H. specialize (Hv v H). lra.
    - exists 0, hi. split; [|split; [exact Hv|reflexivity]]. destruct (Qlt_le_dec 0 hi) as [L|L]; [exact L|].
      assert (F : hi == 0) by lra. apply Qeq_bool_iff in F. congruence. }
  destruct X as (lo & hi' & L & R & ->). cbn [fst].
  set (hist := map (fun k => cnt (in_bin (edges_of lo hi' bins) bins k) vals) (seq 0 bins)).
  assert (T : list_sum hist = length vals). { unfold hist. rewrite (hist_prefix lo hi' bins Hb L vals bins) by (try lia; intros v H; apply R, H). apply below_bins; auto. intros v H; apply R, H. }
  destruct (as_cdf_spec hist) as (cdf & E1 & E2 & E3). { rewrite T. destruct vals; [congruence|simpl; lia]. }
  exists cdf, (edges_of lo hi' bins). split; [reflexivity|]. split; [exact E1|]. split; [rewrite E2; unfold hist; rewrite map_length, seq_length; reflexivity|].
  assert (Le : length (edges_of lo hi' bins) = S bins) by (unfold edges_of; rewrite map_length, seq_length; reflexivity).
  split; [exact Le|]. split; [|split].
  - intros i x y Hx Hy. assert (S i < S bins)%nat by (rewrite <- Le; apply (at_lt _ _ _ _ Hy)). unfold at_ in *. rewrite edges_nth in Hx, Hy by lia.
    injection Hx as <-. injection Hy as <-. rewrite edge_S. pose proof (width1_pos lo hi' bins Hb L). lra.
  - intros i c e Hc He. exists (cnt (below lo hi' bins (S i)) vals).
    assert (S i < S bins)%nat by (rewrite <- Le; apply (at_lt _ _ _ _ He)). unfold at_ in He. rewrite edges_nth in He by lia. injection He as <-.
    split; [apply cnt_how_many|]. rewrite (E3 i c Hc), T. unfold hist. rewrite firstn_map_seq by lia.
    rewrite (hist_prefix lo hi' bins Hb L vals (S i)) by (try lia; intros v Hin; apply R, Hin). reflexivity.
  - intros v a b Hin Ha Hbb. unfold at_ in *. rewrite edges_nth in Ha, Hbb by lia. injection Ha as <-. injection Hbb as <-.
    rewrite edge_0, edge_last by assumption. apply R, Hin.
Qed.

Lemma changes_row_from : forall r x z, removelast (map2 (fun a b => Qabs (a - b)) (x :: r) (r ++ [z])%list) = steps (x :: r).
Proof.
  induction r as [|y r IH]; intros x z; [reflexivity|].
  specialize (IH y z). change (steps (x :: y :: r)) with (Qabs (x - y) :: steps (y :: r)). rewrite <- IH.
  destruct r as [|w r]; reflexivity.
Qed.

Lemma changes_row : forall r, removelast (map2 (fun a b => Qabs (a - b)) r (roll_back r)) = steps r.
Proof. intros [|x r]; [reflexivity|]. apply (changes_row_from r x x). Qed.

Lemma changes_steps : forall w rs, changes (mkTable w rs) = all_steps rs.
Proof. intros. unfold changes, all_steps. cbn [rows]. f_equal. apply map_ext. intro r. apply changes_row. Qed.

Lemma steps_nonneg : forall r v, In v (steps r) -> 0 <= v.
Proof.
  induction r as [|a [|b r] IH]; intros v H; try (destruct H; fail). cbn [steps] in H. destruct H as [<-|H]; [apply Qabs_nonneg|]. apply IH. exact H.
Qed.

Lemma all_steps_nonneg : forall rs v, In v (all_steps rs) -> 0 <= v.
Proof. intros rs v H. unfold all_steps in H. apply in_concat in H. destruct H as (l & Hl & Hv). apply in_map_iff in Hl. destruct Hl as (r & <- & _). eapply steps_nonneg. exact Hv. Qed.

(** ** Given edges *)
Lemma np_min_spec : forall l, l <> [] -> exists m, np_min l = Ok m /\ In m l /\ forall x, In x l -> m <= x.
Proof.
  assert (F : forall l x, let m := fold_left (fun a b => if Qle_bool a b then a else b) l x in m <= x /\ (forall y, In y l -> m <= y) /\ (m = x \/ In m l)).
  { induction l as [|y l IH]; intros x m; subst m; simpl; [split; [lra|]; split; [intros y []|auto]|].
    destruct (IH (if Qle_bool x y then x else y)) as (A & B & C). destruct (Qle_bool x y) eqn:E; [apply Qleb_le in E|apply Qleb_gt in E];
      (split; [lra|]); (split; [intros z [<-|H]; [lra|auto]|]); destruct C as [->|C]; auto. }
  intros [|x l] H; [congruence|]. simpl. eexists. split; [reflexivity|]. destruct (F l x) as (A & B & C). split.
  - destruct C as [->|C]; auto.
  - intros y [<-|Hy]; auto.
Qed.

Lemma count_between : forall inds n s, list_sum (map (fun k => count_nat k inds) (seq s n)) = count_true (map (fun x => (s <=? x)%nat && (x <? s + n)%nat) inds).
Proof.
  intros inds n s. induction inds as [|x inds IH].
  - simpl. generalize (seq s n). intro l. induction l; simpl; auto.
  - unfold count_true in *. simpl.
    assert (E : list_sum (map (fun k => if (k =? x)%nat then S (count_nat k inds) else count_nat k inds) (seq s n)) =
                (list_sum (map (fun k => count_nat k inds) (seq s n)) + list_sum (map (fun k => if (k =? x)%nat then 1 else 0) (seq s n)))%nat).
    { generalize (seq s n). intro l. induction l as [|k l IHl]; simpl; [reflexivity|]. change (fold_right Nat.add 0%nat) with list_sum. rewrite IHl. destruct (k =? x)%nat; lia. }
    rewrite E, IH.
    assert (I : list_sum (map (fun k => if (k =? x)%nat then 1 else 0)%nat (seq s n)) = (if (s <=? x)%nat && (x <? s + n)%nat then 1 else 0)%nat).
    { clear. revert s. induction n as [|n IH]; intro s; simpl.
      - destruct (Nat.leb_spec s x), (Nat.ltb_spec x (s + 0)); simpl; lia.
      - change (fold_right Nat.add 0%nat) with list_sum. rewrite IH.
        destruct (Nat.eqb_spec s x), (Nat.leb_spec (S s) x), (Nat.ltb_spec x (S s + n)), (Nat.leb_spec s x), (Nat.ltb_spec x (s + S n)); simpl; lia. }
    rewrite I. destruct ((s <=? x)%nat && (x <? s + n)%nat); simpl; lia.
Qed.

Lemma list_max_attained : forall l, l <> [] -> In (list_max_nat l) l /\ forall x, In x l -> (x <= list_max_nat l)%nat.
Proof.
  induction l as [|x l IH]; intro H; [congruence|]. destruct l as [|y l]; [simpl; split; [left; lia|intros z [<-|[]]; lia]|].
  destruct (IH ltac:(discriminate)) as (A & B). cbn [list_max_nat] in *. split.
  - destruct (Nat.max_spec x (Nat.max y (list_max_nat l))) as [(_ & ->)|(_ & ->)]; [right; exact A|left; reflexivity].
  - intros z [<-|Hz]; [lia|]. specialize (B z Hz). lia.
Qed.

Lemma last_at : forall A (e : list A) d x, at_ (x :: e) (length e) (last (x :: e) d).
Proof.
  intros A e d. induction e as [|y e IH]; intro x; [reflexivity|]. exact (IH y).
Qed.

Lemma given_edges : forall vals e0 e, nondecreasing (e0 :: e) -> vals <> [] -> (forall v, In v vals -> e0 <= v < last (e0 :: e) e0) ->
  exists cdf, as_cdf (tl (bincount (map (searchsorted (e0 :: e)) vals) 0)) = map Some cdf /\ (length cdf <= length e)%nat /\
    (forall i c b, at_ cdf i c -> at_ e i b -> exists n m, how_many (fun v => e0 < v <= b) vals n /\ how_many (fun v => e0 < v) vals m /\
       (0 < m)%nat /\ c == count_of n / count_of m) /\
    (forall v b, In v vals -> at_ (e0 :: e) (length cdf) b -> v <= b) /\
    (forall i b, (i < length cdf)%nat -> at_ (e0 :: e) i b -> exists v, In v vals /\ b < v).
Proof.
  intros vals e0 e Hu Hne R. set (ss := searchsorted (e0 :: e)). set (inds := map ss vals). set (L := list_max_nat inds).
  assert (Ne : inds <> []) by (unfold inds; destruct vals; [congruence|discriminate]).
  destruct (list_max_attained inds Ne) as (A & B). fold L in A, B.
  assert (Eh : tl (bincount inds 0) = map (fun k => count_nat k inds) (seq 1 L)).
  { unfold L. clear - Ne. unfold bincount. destruct inds as [|x l]; [congruence|]. reflexivity. }
  rewrite Eh.
  assert (Le : (L <= length e)%nat).
  { unfold inds in A. apply in_map_iff in A. destruct A as (v & <- & Hv). apply (searchsorted_le_iff (e0 :: e) v (length e) (last (e0 :: e) e0) Hu); [apply last_at|]. specialize (R v Hv). lra. }
  assert (Z0 : forall v, (1 <= ss v)%nat <-> e0 < v).
  { intro v. pose proof (searchsorted_le_iff (e0 :: e) v 0 e0 Hu eq_refl) as I. fold ss in I. split; intro H.
    - apply Qnot_le_lt. intro C. apply I in C. lia.
    - destruct (ss v) eqn:E; [|lia]. exfalso. assert (v <= e0) by (apply I; lia). lra. }
  assert (Top : forall v b, In v vals -> at_ (e0 :: e) L b -> v <= b).
  { intros v b Hv Hb. apply (searchsorted_le_iff (e0 :: e) v L b Hu Hb). apply B. unfold inds. apply in_map, Hv. }
  destruct L as [|L'] eqn:EL.
  - exists []. split; [reflexivity|]. split; [simpl; lia|]. split; [intros i c b H; destruct i; discriminate|]. split; [exact Top|]. simpl. intros i b H. lia.
  - rewrite <- EL in *.
    assert (Tot : list_sum (map (fun k => count_nat k inds) (seq 1 L)) = count_true (map (fun v => (1 <=? ss v)%nat) vals)).
    { rewrite count_between. unfold inds. rewrite map_map. f_equal. apply map_ext_in. intros v Hv.
      assert (ss v <= L)%nat by (apply B; unfold inds; apply in_map, Hv). destruct (Nat.leb_spec 1 (ss v)), (Nat.ltb_spec (ss v) (1 + L)); simpl; lia || reflexivity. }
    assert (Pos : (0 < count_true (map (fun v => (1 <=? ss v)%nat) vals))%nat).
    { unfold inds in A. apply in_map_iff in A. destruct A as (v & Ev & Hv). assert (Pv : (1 <= ss v)%nat) by lia. clear - Hv Pv. clearbody ss. induction vals as [|x l IH]; [destruct Hv|]. unfold count_true in *. cbn [map filter].
      destruct Hv as [->|Hv].
      - destruct (Nat.leb_spec 1 (ss v)); [cbn [length]; lia|lia].
      - specialize (IH Hv). destruct (1 <=? ss x)%nat; [cbn [length]; lia|exact IH]. }
    destruct (as_cdf_spec (map (fun k => count_nat k inds) (seq 1 L))) as (cdf & Ec & Lc & V); [lia|].
    rewrite map_length, seq_length in Lc. exists cdf. split; [exact Ec|]. split; [lia|]. split; [|split; [rewrite Lc; exact Top|]].
    + intros i c b Hc Hb. assert (Hi : (i < L)%nat) by (rewrite <- Lc; apply at_lt in Hc; exact Hc).
      exists (list_sum (firstn (S i) (map (fun k => count_nat k inds) (seq 1 L)))), (list_sum (map (fun k => count_nat k inds) (seq 1 L))).
      split; [|split; [|split; [lia|apply V, Hc]]].
      * rewrite firstn_map. assert (Fs : firstn (S i) (seq 1 L) = seq 1 (S i)).
        { clear - Hi. generalize 1%nat. revert i Hi. induction L as [|n IH]; intros i Hi s; [lia|]. simpl. f_equal. destruct i as [|i]; [reflexivity|]. apply IH. lia. }
        rewrite Fs, count_between. unfold inds. rewrite map_map. apply count_how_many. intros v Hv. rewrite andb_true_iff, Nat.leb_le, Nat.ltb_lt, Z0.
        pose proof (searchsorted_le_iff (e0 :: e) v (S i) b Hu Hb) as I. fold ss in I. rewrite <- I. intuition lia.
      * rewrite Tot. apply count_how_many. intros v Hv. rewrite Nat.leb_le. apply Z0.
    + rewrite Lc. intros i b Hi Hb. unfold inds in A. apply in_map_iff in A. destruct A as (v & Ev & Hv). exists v. split; [exact Hv|].
      apply Qnot_le_lt. intro C. apply (searchsorted_le_iff (e0 :: e) v i b Hu Hb) in C. fold ss in C. lia.
Qed.
