(** * Proofs about the edit distance. *)

From Coq Require Import DecimalPos DecimalZ List ZArith Arith Lia.
From Verif Require Import Prelude Levenshtein_Model Levenshtein_Spec.
Import ListNotations.

(** ** Alignments *)
Inductive align {A : Type} : list A -> list A -> nat -> Prop :=
| al_nil : align [] [] 0
| al_keep : forall c s t n, align s t n -> align (c :: s) (c :: t) n
| al_sub : forall a b s t n, align s t n -> align (a :: s) (b :: t) (S n)
| al_del : forall a s t n, align s t n -> align (a :: s) t (S n)
| al_ins : forall b s t n, align s t n -> align s (b :: t) (S n).

Section Al.
Context {A : Type}.
Implicit Types s t r u v : list A.

Lemma align_refl : forall s, align s s 0.
Proof. induction s; constructor; assumption. Qed.

Lemma align_app : forall s t n, align s t n -> forall s' t' n', align s' t' n' -> align (s ++ s') (t ++ t') (n + n').
Proof. induction 1; intros; cbn [List.app Nat.add]; [assumption|apply al_keep|apply al_sub|apply al_del|apply al_ins]; auto. Qed.

Lemma align_rev : forall s t n, align s t n -> align (rev s) (rev t) n.
Proof.
  induction 1; cbn [rev]; [constructor| | | |].
  - replace n with (n + 0) by lia. apply align_app; [assumption|repeat constructor].
  - replace (S n) with (n + 1) by lia. apply align_app; [assumption|repeat constructor].
  - replace (S n) with (n + 1) by lia. rewrite <- (app_nil_r (rev t)). apply align_app; [assumption|repeat constructor].
  - replace (S n) with (n + 1) by lia. rewrite <- (app_nil_r (rev s)). apply align_app; [assumption|repeat constructor].
Qed.

Lemma script_cons : forall c n s t, script n s t -> script n (c :: s) (c :: t).
Proof.
  induction 1 as [|n s t r E S IH]; [constructor|]. apply script_edit with (c :: t); [|exact IH].
  destruct E as [u x v|u x v|u x y v]; [apply (insertion (c :: u))|apply (deletion (c :: u))|apply (replacement (c :: u))].
Qed.

Lemma align_script : forall s t n, align s t n -> script n s t.
Proof.
  induction 1 as [|c s t n H IH|a b s t n H IH|a s t n H IH|b s t n H IH].
  - constructor.
  - apply script_cons, IH.
  - apply script_edit with (b :: s); [apply (replacement [])|apply script_cons, IH].
  - apply script_edit with s; [apply (deletion [])|exact IH].
  - apply script_edit with (b :: s); [apply (insertion [])|apply script_cons, IH].
Qed.

(** Composition. *)
Lemma align_trans : forall s t m, align s t m -> forall r n, align t r n -> exists k, k <= m + n /\ align s r k.
Proof.
  intros s t m H. induction H as [|c s t m H IH|a b s t m H IH|a s t m H IH|b s t m H IH]; intros r n H'.
  - exists n. split; [lia|exact H'].
  - remember (c :: t) as ct eqn:E. revert E. induction H' as [|c' s' t' n' H' IH'|a' b' s' t' n' H' IH'|a' s' t' n' H' IH'|b' s' t' n' H' IH']; intro E; try discriminate.
    + injection E as -> ->. destruct (IH _ _ H') as (k & L & K). exists k. split; [lia|now apply al_keep].
    + injection E as -> ->. destruct (IH _ _ H') as (k & L & K). exists (S k). split; [lia|now apply al_sub].
    + injection E as -> ->. destruct (IH _ _ H') as (k & L & K). exists (S k). split; [lia|now apply al_del].
    + destruct (IH' E) as (k & L & K). exists (S k). split; [lia|now apply al_ins].
  - remember (b :: t) as ct eqn:E. revert E. induction H' as [|c' s' t' n' H' IH'|a' b' s' t' n' H' IH'|a' s' t' n' H' IH'|b' s' t' n' H' IH']; intro E; try discriminate.
    + injection E as -> ->. destruct (IH _ _ H') as (k & L & K). exists (S k). split; [lia|now apply al_sub].
    + injection E as -> ->. destruct (IH _ _ H') as (k & L & K). exists (S k). split; [lia|now apply al_sub].
    + injection E as -> ->. destruct (IH _ _ H') as (k & L & K). exists (S k). split; [lia|now apply al_del].
    + destruct (IH' E) as (k & L & K). exists (S k). split; [lia|now apply al_ins].
  - destruct (IH _ _ H') as (k & L & K). exists (S k). split; [lia|now apply al_del].
  - remember (b :: t) as ct eqn:E. revert E. induction H' as [|c' s' t' n' H' IH'|a' b' s' t' n' H' IH'|a' s' t' n' H' IH'|b' s' t' n' H' IH']; intro E; try discriminate.
    + injection E as -> ->. destruct (IH _ _ H') as (k & L & K). exists (S k). split; [lia|now apply al_ins].
    + injection E as -> ->. destruct (IH _ _ H') as (k & L & K). exists (S k). split; [lia|now apply al_ins].
    + injection E as -> ->. destruct (IH _ _ H') as (k & L & K). exists k. split; [lia|exact K].
    + destruct (IH' E) as (k & L & K). exists (S k). split; [lia|now apply al_ins].
Qed.

Lemma align_edit : forall s t, edit s t -> align s t 1.
Proof.
  assert (P : forall u s t n, align s t n -> align (u ++ s) (u ++ t) n) by (intros u s t n H; exact (align_app _ _ _ (align_refl u) _ _ _ H)).
  destruct 1; apply P; constructor; apply align_refl.
Qed.

Lemma script_align : forall n s t, script n s t -> exists k, k <= n /\ align s t k.
Proof.
  induction 1 as [s|n s t r E S (k & L & K)]; [exists 0; split; [lia|apply align_refl]|].
  destruct (align_trans _ _ _ (align_edit _ _ E) _ _ K) as (k' & L' & K'). exists k'. split; [lia|exact K'].
Qed.

Definition best s t n : Prop := align s t n /\ forall m, align s t m -> n <= m.

Lemma best_least : forall s t n, best s t n -> least_edits n s t.
Proof.
  intros s t n (H & M). split; [apply align_script, H|]. intros m Hm. destruct (script_align _ _ _ Hm) as (k & L & K). specialize (M k K). lia.
Qed.

Lemma snoc_inv : forall s a t b n, align (s ++ [a]) (t ++ [b]) n ->
  (a = b /\ align s t n) \/ exists m, n = S m /\ (align s t m \/ align s (t ++ [b]) m \/ align (s ++ [a]) t m).
Proof.
  intros s a t b n H. apply align_rev in H. rewrite !rev_unit in H.
  assert (R : forall x y m, align (rev x) (rev y) m -> align x y m) by (intros x y m K; apply align_rev in K; rewrite !rev_involutive in K; exact K).
  inversion H as [|c s0 t0 n0 K E1 E2|a0 b0 s0 t0 n0 K E1 E2|a0 s0 t0 n0 K E1 E2|b0 s0 t0 n0 K E1 E2]; subst.
  - left. split; [reflexivity|apply R, K].
  - right. exists n0. split; [reflexivity|]. left. apply R, K.
  - right. exists n0. split; [reflexivity|]. right. left. rewrite <- rev_unit in K. apply R, K.
  - right. exists n0. split; [reflexivity|]. right. right. rewrite <- rev_unit in K. apply R, K.
Qed.

Lemma align_snoc_keep : forall s t c n, align s t n -> align (s ++ [c]) (t ++ [c]) n.
Proof. intros. replace n with (n + 0) by lia. apply align_app; [assumption|repeat constructor]. Qed.

Lemma align_snoc_sub : forall s t a b n, align s t n -> align (s ++ [a]) (t ++ [b]) (S n).
Proof. intros. replace (S n) with (n + 1) by lia. apply align_app; [assumption|repeat constructor]. Qed.

Lemma align_snoc_del : forall s t a n, align s t n -> align (s ++ [a]) t (S n).
Proof. intros. replace (S n) with (n + 1) by lia. rewrite <- (app_nil_r t). apply align_app; [assumption|repeat constructor]. Qed.

Lemma align_snoc_ins : forall s t b n, align s t n -> align s (t ++ [b]) (S n).
Proof. intros. replace (S n) with (n + 1) by lia. rewrite <- (app_nil_r s) at 1. apply align_app; [assumption|repeat constructor]. Qed.

Lemma align_nil_l : forall t n, align [] t n -> n = length t.
Proof. intros t n H. remember [] as e eqn:E. revert E. induction H; intro E; try discriminate; [reflexivity|]. cbn [length]. f_equal. auto. Qed.

Lemma best_nil_l : forall t, best [] t (length t).
Proof. intro t. split; [induction t; cbn [length]; constructor; assumption|]. intros m H. apply align_nil_l in H. lia. Qed.

Lemma align_sym : forall s t n, align s t n -> align t s n.
Proof. induction 1; constructor; assumption. Qed.

Lemma best_nil_r : forall s, best s [] (length s).
Proof. intro s. destruct (best_nil_l s) as (B1 & B2). split; [apply align_sym, B1|]. intros m H. apply B2, align_sym, H. Qed.
End Al.

Lemma best_snoc : forall s a t b x y z, best s t x -> best s (t ++ [b]) y -> best (s ++ [a]) t z ->
  best (s ++ [a]) (t ++ [b]) (Nat.min (Nat.min (S y) (S z)) (x + (if Nat.eqb a b then 0 else 1))).
Proof.
  intros s a t b x y z (X & MX) (Y & MY) (Z & MZ). split.
  - destruct (Nat.eqb_spec a b) as [<-|N].
    + destruct (Nat.le_gt_cases (x + 0) (Nat.min (S y) (S z))); [rewrite Nat.min_r by lia; rewrite Nat.add_0_r; apply align_snoc_keep, X|]. rewrite Nat.min_l by lia.
      destruct (Nat.le_gt_cases y z); [rewrite Nat.min_l by lia; apply align_snoc_del, Y|rewrite Nat.min_r by lia; apply align_snoc_ins, Z].
    + destruct (Nat.le_gt_cases (x + 1) (Nat.min (S y) (S z))); [rewrite Nat.min_r by lia; replace (x + 1) with (S x) by lia; apply align_snoc_sub, X|]. rewrite Nat.min_l by lia.
      destruct (Nat.le_gt_cases y z); [rewrite Nat.min_l by lia; apply align_snoc_del, Y|rewrite Nat.min_r by lia; apply align_snoc_ins, Z].
  - intros m H. apply snoc_inv in H. destruct H as [(<- & H)|(k & -> & [H|[H|H]])].
    + apply MX in H. rewrite Nat.eqb_refl. lia.
    + apply MX in H. destruct (Nat.eqb a b); lia.
    + apply MY in H. lia.
    + apply MZ in H. lia.
Qed.

(** ** Rows *)

(** [cells s p t row]: the entries of [row] are the best costs for [s] and the
    prefixes [p], [p ++ ..], up to [p ++ t]. *)
Fixpoint cells (s p t row : list nat) {struct row} : Prop :=
  match row with
  | [] => False
  | x :: row' => best s p x /\ match t with [] => row' = [] | b :: t' => cells s (p ++ [b]) t' row' end
  end.

Lemma next_cells_ok : forall s a t p corner above left,
  cells s p t (corner :: above) -> best (s ++ [a]) p left -> cells (s ++ [a]) p t (left :: next_cells a t corner left above).
Proof.
  intros s a t. induction t as [|b t IH]; intros p corner above left (C & R) L.
  - subst above. cbn. split; [exact L|reflexivity].
  - destruct above as [|up above]; [destruct R|]. cbn [next_cells]. split; [exact L|]. apply IH; [exact R|]. destruct R as (U & _). apply best_snoc; assumption.
Qed.

Lemma next_row_ok : forall s a t row, cells s [] t row -> cells (s ++ [a]) [] t (next_row t row a).
Proof.
  intros s a t [|corner above] C; [destruct C|]. cbn [next_row]. apply next_cells_ok; [exact C|]. destruct C as ((C & M) & _).
  assert (corner = length s). { assert (B := best_nil_r s). destruct B as (B1 & B2). specialize (M _ B1). specialize (B2 _ C). lia. } subst corner.
  replace (S (length s)) with (length (s ++ [a])) by (rewrite app_length; cbn; lia). apply best_nil_r.
Qed.

Lemma first_row_ok : forall t p, cells [] p t (seq (length p) (S (length t))).
Proof.
  induction t as [|b t IH]; intro p; cbn [length seq cells].
  - split; [apply best_nil_l|reflexivity].
  - split; [apply best_nil_l|]. specialize (IH (p ++ [b])). rewrite app_length in IH. cbn [length] in IH. replace (length p + 1) with (S (length p)) in IH by lia. exact IH.
Qed.

Lemma rows_ok : forall t s p row, cells p [] t row -> cells (p ++ s) [] t (fold_left (next_row t) s row).
Proof.
  intros t. induction s as [|a s IH]; intros p row C; cbn [fold_left]; [rewrite app_nil_r; exact C|].
  replace (p ++ a :: s) with ((p ++ [a]) ++ s) by (rewrite <- app_assoc; reflexivity). apply IH, next_row_ok, C.
Qed.

Lemma cells_last : forall s t p row d, cells s p t row -> best s (p ++ t) (last row d).
Proof.
  intros s. induction t as [|b t IH]; intros p [|x row] d C; try (destruct C as (B & R)); try contradiction.
  - subst row. rewrite app_nil_r. exact B.
  - destruct row as [|y row]; [destruct R|]. change (last (x :: y :: row) d) with (last (y :: row) d). replace (p ++ b :: t) with ((p ++ [b]) ++ t) by (rewrite <- app_assoc; reflexivity).
    apply IH, R.
Qed.

Lemma distance_best : forall s t, best s t (distance s t).
Proof.
  intros s t. unfold distance. apply (cells_last s t []). apply (rows_ok t s []). apply (first_row_ok t []).
Qed.

(** ** Texts *)
Lemma script_map {A B} (f : A -> B) : forall n s t, script n s t -> script n (map f s) (map f t).
Proof.
  induction 1 as [|n s t r E S IH]; [constructor|]. apply script_edit with (map f t); [|exact IH]. destruct E; rewrite !map_app; cbn [map]; constructor.
Qed.

Definition single (z : Z) : Prop := (0 <= z < 10)%Z.

Lemma str_single : forall z, single z -> str_int z = [Z.to_nat z].
Proof.
  intros z H. unfold single in H. assert (C : (z = 0 \/ z = 1 \/ z = 2 \/ z = 3 \/ z = 4 \/ z = 5 \/ z = 6 \/ z = 7 \/ z = 8 \/ z = 9)%Z) by lia.
  repeat (destruct C as [->|C]; [reflexivity|]). rewrite C. reflexivity.
Qed.

Lemma text_single : forall p, (forall z, In z p -> single z) -> text p = map Z.to_nat p.
Proof.
  induction p as [|z p IH]; intro H; [reflexivity|]. unfold text in *. cbn [flat_map map]. rewrite str_single by (apply H; now left). rewrite IH by (intros; apply H; now right). reflexivity.
Qed.

Lemma back_single : forall p, (forall z, In z p -> single z) -> map Z.of_nat (map Z.to_nat p) = p.
Proof.
  induction p as [|z p IH]; intro H; [reflexivity|]. cbn [map]. rewrite IH by (intros; apply H; now right). rewrite Z2Nat.id by (destruct (H z (or_introl eq_refl)); lia). reflexivity.
Qed.

Lemma least_single : forall p q, (forall z, In z p -> single z) -> (forall z, In z q -> single z) -> least_edits (levenshtein_edit_distance p q) p q.
Proof.
  intros p q Hp Hq. unfold levenshtein_edit_distance. rewrite !text_single by assumption. destruct (best_least _ _ _ (distance_best (map Z.to_nat p) (map Z.to_nat q))) as (S & M). split.
  - apply (script_map Z.of_nat) in S. rewrite !back_single in S by assumption. exact S.
  - intros m Hm. apply M, script_map, Hm.
Qed.

Lemma script_app {A} : forall m n (s t r : list A), script m s t -> script n t r -> script (m + n) s r.
Proof. induction 1; intros; cbn [Nat.add]; [assumption|eapply script_edit; [eassumption|auto]]. Qed.

Lemma script_sym {A} : forall n (s t : list A), script n s t -> script n t s.
Proof.
  induction 1 as [|n s t r E S IH]; [constructor|]. replace (Datatypes.S n) with (n + 1) by lia. apply (script_app _ _ _ _ _ IH). apply script_edit with s; [destruct E; constructor|constructor].
Qed.

Lemma least_zero {A} : forall (s t : list A) n, least_edits n s t -> (n = 0 <-> s = t).
Proof.
  intros s t n (S & M). split; [intros ->; inversion S; reflexivity|]. intros <-. specialize (M 0 (script_done s)). lia.
Qed.

Lemma least_sym {A} : forall (s t : list A) m n, least_edits m s t -> least_edits n t s -> m = n.
Proof. intros s t m n (S & M) (S' & M'). specialize (M _ (script_sym _ _ _ S')). specialize (M' _ (script_sym _ _ _ S)). lia. Qed.

Lemma least_triangle {A} : forall (s t r : list A) m n k, least_edits m s t -> least_edits n t r -> least_edits k s r -> k <= m + n.
Proof. intros s t r m n k (S & _) (S' & _) (_ & M). apply M. eapply script_app; eassumption. Qed.

(** Bounds by the lengths. *)
Lemma edit_length {A} : forall (s t : list A), edit s t -> length s <= S (length t) /\ length t <= S (length s).
Proof. destruct 1; rewrite !app_length; cbn [length]; lia. Qed.

Lemma script_length {A} : forall n (s t : list A), script n s t -> length s <= n + length t /\ length t <= n + length s.
Proof. induction 1 as [|n s t r E S IH]; [lia|]. apply edit_length in E. lia. Qed.

Lemma script_max {A} : forall (s t : list A), exists n, n <= Nat.max (length s) (length t) /\ script n s t.
Proof.
  induction s as [|a s IH]; intros t.
  - exists (length t). split; [cbn; lia|]. apply align_script, best_nil_l.
  - destruct t as [|b t]; [exists (length (a :: s)); split; [cbn; lia|apply align_script, best_nil_r]|]. destruct (IH t) as (n & L & S). exists (Datatypes.S n). split; [cbn [length]; lia|].
    apply script_edit with (b :: s); [apply (replacement [])|apply script_cons, S].
Qed.

(** ** Printing *)
Lemma digits_small : forall u x, In x (digits u) -> x < 10.
Proof. induction u; intros x H; cbn [digits] in H; [destruct H|..]; destruct H as [<-|H]; try lia; apply IHu; exact H. Qed.

Lemma digits_inj : forall u w, digits u = digits w -> u = w.
Proof. induction u; intros [] H; cbn [digits] in H; try discriminate; try reflexivity; injection H as H; f_equal; auto. Qed.

Lemma str_int_inj : forall z w, str_int z = str_int w -> z = w.
Proof.
  intros z w H. rewrite <- (DecimalZ.of_to z), <- (DecimalZ.of_to w). unfold str_int in H.
  destruct (Z.to_int z) as [u|u] eqn:Ez, (Z.to_int w) as [v|v] eqn:Ew.
  - apply digits_inj in H. now subst.
  - exfalso. assert (10 < 10); [|lia]. apply (digits_small u). rewrite H. now left.
  - exfalso. assert (10 < 10); [|lia]. apply (digits_small v). rewrite <- H. now left.
  - injection H as H. apply digits_inj in H. now subst.
Qed.

Lemma str_int_nil : forall z, str_int z <> [].
Proof. intros z H. destruct z as [|p|p]; [discriminate| |discriminate]. unfold str_int in H. cbn in H. pose proof (DecimalPos.Unsigned.of_to p) as O. destruct (Pos.to_uint p); try discriminate. Qed.
