(** * Facts on probabilities of events tiled by boxes. *)

From Coq Require Import List ZArith QArith Qround Bool Arith Lia Lqa.
From Verif Require Import Prelude PreludeFacts SpecBase SpecBaseFacts Sampling_Spec Sampling_Proofs Activity_Spec Law_Spec.
Import ListNotations.

Lemma total_app : forall a b, total (a ++ b) == total a + total b.
Proof. induction a as [|x a IH]; intros b; simpl; [ring|]. unfold total in *. cbn [fold_right List.app]. rewrite IH. ring. Qed.

Lemma total_cons : forall x l, total (x :: l) = x + total l.
Proof. reflexivity. Qed.

Lemma total_map_ext : forall A (f g : A -> Q) l, (forall x, In x l -> f x == g x) -> total (map f l) == total (map g l).
Proof.
  induction l as [|x l IH]; intros H; [reflexivity|]. cbn [map]. rewrite !total_cons, IH; [|intros; apply H; right; assumption].
  rewrite (H x); [reflexivity|left; reflexivity].
Qed.

Lemma total_scale : forall A (f : A -> Q) c l, total (map (fun x => c * f x) l) == c * total (map f l).
Proof. induction l as [|x l IH]; cbn [map]; [unfold total; simpl; ring|]. rewrite !total_cons, IH. ring. Qed.

Lemma total_flat : forall A B (f : B -> Q) (g : A -> list B) l,
  total (map f (flat_map g l)) == total (map (fun x => total (map f (g x))) l).
Proof. induction l as [|x l IH]; [reflexivity|]. cbn [flat_map map]. rewrite map_app, total_app, total_cons, IH. reflexivity. Qed.

Lemma total_zero : forall A (f : A -> Q) l, (forall x, In x l -> f x == 0) -> total (map f l) == 0.
Proof.
  induction l as [|x l IH]; intros H; [reflexivity|]. cbn [map]. rewrite total_cons, IH, (H x); [ring|left; reflexivity|].
  intros; apply H; right; assumption.
Qed.

Lemma total_nonneg : forall l, (forall x, In x l -> 0 <= x) -> 0 <= total l.
Proof.
  induction l as [|x l IH]; intros H; [apply Qle_refl|]. rewrite total_cons. specialize (IH (fun y Hy => H y (or_intror Hy))).
  specialize (H x (or_introl eq_refl)). lra.
Qed.

(** ** Boxes *)

Definition inside1 (ab : Q * Q) (u : Q) : bool := Qle_bool (fst ab) u && negb (Qle_bool (snd ab) u).

Lemma inside1_iff : forall ab u, inside1 ab u = true <-> fst ab <= u /\ u < snd ab.
Proof.
  intros ab u. unfold inside1. rewrite andb_true_iff, negb_true_iff, Qle_bool_iff. split.
  - intros [H1 H2]. split; [exact H1|]. apply Qnot_le_lt. intros H. apply Qle_bool_iff in H. congruence.
  - intros [H1 H2]. split; [exact H1|]. destruct (Qle_bool (snd ab) u) eqn:E; [|reflexivity].
    apply Qle_bool_iff in E. lra.
Qed.

Lemma inside_cons : forall ab b u us, inside (ab :: b) (u :: us) = inside1 ab u && inside b us.
Proof. reflexivity. Qed.

Lemma inside_app : forall b us b' us', length b = length us -> inside (b ++ b') (us ++ us') = inside b us && inside b' us'.
Proof.
  induction b as [|ab b IH]; intros [|u us] b' us' H; try discriminate; [reflexivity|].
  cbn [List.app]. rewrite !inside_cons, IH by (cbn in H; lia). apply andb_assoc.
Qed.

Lemma volume_app : forall b b', volume (b ++ b') == volume b * volume b'.
Proof.
  induction b as [|ab b IH]; intros b'; [unfold volume; cbn; ring|].
  change (volume ((ab :: b) ++ b')) with ((snd ab - fst ab) * volume (b ++ b')).
  change (volume (ab :: b)) with ((snd ab - fst ab) * volume b). rewrite IH. ring.
Qed.

Lemma box_app : forall d d' b b', box_in_cube d b -> box_in_cube d' b' -> box_in_cube (d + d') (b ++ b').
Proof.
  intros d d' b b' [H1 H2] [H3 H4]. split; [rewrite app_length; lia|]. intros i lo hi H. unfold at_ in *.
  destruct (Nat.lt_ge_cases i (length b)).
  - rewrite nth_error_app1 in H by assumption. eapply H2; eauto.
  - rewrite nth_error_app2 in H by assumption. eapply H4; eauto.
Qed.

Lemma box_tail : forall d ab b, box_in_cube (S d) (ab :: b) -> 0 <= fst ab /\ fst ab <= snd ab /\ snd ab <= 1 /\ box_in_cube d b.
Proof.
  intros d [lo hi] b [H1 H2]. destruct (H2 0%nat lo hi eq_refl) as (A & B & C). cbn. repeat split; try assumption.
  - cbn in H1; lia.
  - exact (proj1 (H2 (S i) _ _ H)).
  - exact (proj1 (proj2 (H2 (S i) _ _ H))).
  - exact (proj2 (proj2 (H2 (S i) _ _ H))).
Qed.

Lemma volume_nonneg : forall b d, box_in_cube d b -> 0 <= volume b.
Proof.
  induction b as [|ab b IH]; intros d H; [unfold volume; cbn; lra|].
  destruct d as [|d]; [destruct H; discriminate|]. apply box_tail in H as (A & B & C & D). apply IH in D.
  change (volume (ab :: b)) with ((snd ab - fst ab) * volume b). nra.
Qed.

Lemma draws_split : forall d d' us, draws (d + d') us -> draws d (firstn d us) /\ draws d' (skipn d us).
Proof.
  intros d d' us [H1 H2]. repeat split.
  - rewrite firstn_length. lia.
  - rewrite <- (firstn_skipn d us) in H2. apply Forall_app in H2. apply H2.
  - rewrite skipn_length. lia.
  - rewrite <- (firstn_skipn d us) in H2. apply Forall_app in H2. apply H2.
Qed.

Lemma draws_app : forall d d' us us', draws d us -> draws d' us' -> draws (d + d') (us ++ us').
Proof. intros d d' us us' [H1 H2] [H3 H4]. split; [rewrite app_length; lia|apply Forall_app; split; assumption]. Qed.

(** ** Counting *)

Lemma times_app : forall l l' us, times (l ++ l') us = (times l us + times l' us)%nat.
Proof. intros. unfold times. rewrite filter_app, app_length. reflexivity. Qed.

Lemma times_map_app : forall b us us' l, length b = length us ->
  times (map (app b) l) (us ++ us') = if inside b us then times l us' else 0%nat.
Proof.
  intros b us us' l H. unfold times. induction l as [|b' l IH]; cbn [map filter]; [destruct (inside b us); reflexivity|].
  rewrite inside_app by assumption. destruct (inside b us); cbn [andb].
  - destruct (inside b' us'); cbn [length]; congruence.
  - exact IH.
Qed.

Lemma times_product : forall d us us' l l', (forall b, In b l -> length b = d) -> length us = d ->
  times (flat_map (fun b => map (app b) l') l) (us ++ us') = (times l us * times l' us')%nat.
Proof.
  intros d us us' l l' Hl Hd. induction l as [|b l IH]; [reflexivity|]. cbn [flat_map].
  rewrite times_app, times_map_app by (rewrite (Hl b) by (left; reflexivity); lia).
  rewrite IH by (intros; apply Hl; right; assumption). unfold times. cbn [filter].
  destruct (inside b us); cbn [length]; lia.
Qed.

Lemma volumes_product : forall l l',
  total (map volume (flat_map (fun b => map (app b) l') l)) == total (map volume l) * total (map volume l').
Proof.
  intros l l'. rewrite total_flat. transitivity (total (map (fun b => total (map volume l') * volume b) l)).
  - apply total_map_ext. intros b _. rewrite map_map. rewrite (total_map_ext _ (fun x => volume (b ++ x)) (fun x => volume b * volume x)).
    + rewrite (total_scale _ volume). apply Qmult_comm.
    + intros. apply volume_app.
  - rewrite (total_scale _ volume). apply Qmult_comm.
Qed.

(** ** Calculus of probabilities *)

Lemma prob_ext : forall d P P' p p', has_probability d P p -> (forall us, draws d us -> (P us <-> P' us)) -> p == p' ->
  has_probability d P' p'.
Proof.
  intros d P P' p p' (boxes & H1 & H2 & H3) HP Hp. exists boxes. split; [exact H1|]. split; [|rewrite H3; exact Hp].
  intros us Hus. destruct (H2 us Hus) as [H4 H5]. split; [exact H4|]. rewrite <- (HP us Hus). exact H5.
Qed.

Lemma prob_never : forall d P, (forall us, draws d us -> ~ P us) -> has_probability d P 0.
Proof.
  intros d P H. exists []. split; [intros ? []|]. split; [|reflexivity]. intros us Hus. split; [cbn; lia|].
  split; [intros Hp; destruct (H us Hus Hp)|cbn; discriminate].
Qed.

Lemma whole_box : forall d, box_in_cube d (repeat (0, 1) d).
Proof.
  intros d. split; [apply repeat_length|]. intros i lo hi H. apply nth_error_In, repeat_spec in H. injection H as -> ->. lra.
Qed.

Lemma whole_inside : forall d us, draws d us -> inside (repeat (0, 1) d) us = true.
Proof.
  induction d as [|d IH]; intros [|u us] [H1 H2]; try discriminate; [reflexivity|]. cbn [repeat].
  rewrite inside_cons. inversion H2; subst. rewrite IH by (split; [cbn in H1; lia|assumption]).
  rewrite (proj2 (inside1_iff (0,1) u)); [reflexivity|]. exact H3.
Qed.

Lemma whole_volume : forall d, volume (repeat (0, 1) d) == 1.
Proof.
  induction d as [|d IH]; [reflexivity|]. cbn [repeat].
  change (volume ((0, 1) :: repeat (0, 1) d)) with ((1 - 0) * volume (repeat (0, 1) d)). rewrite IH. reflexivity.
Qed.

Lemma prob_always : forall d (P : list Q -> Prop), (forall us, draws d us -> P us) -> has_probability d P 1.
Proof.
  intros d P H. exists [repeat (0, 1) d]. split; [intros b [<-|[]]; apply whole_box|]. split.
  - intros us Hus. unfold times. cbn [filter]. rewrite whole_inside by assumption. cbn [length]. split; [lia|].
    split; [reflexivity|intros _; apply H; assumption].
  - cbn [map]. rewrite total_cons, whole_volume. unfold total; cbn. reflexivity.
Qed.

Lemma prob_interval : forall (P : list Q -> Prop) lo hi, 0 <= lo -> lo <= hi -> hi <= 1 ->
  (forall u, 0 <= u -> u < 1 -> (P [u] <-> lo <= u /\ u < hi)) -> has_probability 1 P (hi - lo).
Proof.
  intros P lo hi H0 H1 H2 H. exists [[(lo, hi)]]. split.
  - intros b [<-|[]]. split; [reflexivity|]. intros [|i] l h E; [|destruct i; discriminate]. injection E as <- <-. auto.
  - split; [|unfold total, volume; cbn; ring]. intros us [Hl Hu]. destruct us as [|u [|]]; try discriminate.
    inversion Hu as [|? ? [Ha Hb] _]; subst. rewrite (H u Ha Hb). unfold times. cbn [filter]. rewrite inside_cons.
    change (inside [] []) with true. rewrite andb_true_r.
    destruct (inside1 (lo, hi) u) eqn:E; cbn [length].
    + split; [lia|]. apply inside1_iff in E. tauto.
    + split; [lia|]. split; [|discriminate]. intros Hi. apply (inside1_iff (lo, hi)) in Hi. congruence.
Qed.

Lemma prob_both : forall d d' P P' p p', has_probability d P p -> has_probability d' P' p' ->
  has_probability (d + d') (fun us => P (firstn d us) /\ P' (skipn d us)) (p * p').
Proof.
  intros d d' P P' p p' (l & A1 & A2 & A3) (l' & B1 & B2 & B3).
  exists (flat_map (fun b => map (app b) l') l). split; [|split].
  - intros b Hb. apply in_flat_map in Hb as (b1 & Hb1 & Hb). apply in_map_iff in Hb as (b2 & <- & Hb2).
    apply box_app; auto.
  - intros us Hus. destruct (draws_split _ _ _ Hus) as [H1 H2].
    assert (Ht : times (flat_map (fun b => map (app b) l') l) us =
                 (times l (firstn d us) * times l' (skipn d us))%nat).
    { rewrite <- (firstn_skipn d us) at 1. apply times_product with (d := d); [intros b Hb; apply A1; assumption|apply H1]. }
    rewrite Ht. destruct (A2 _ H1) as [A4 A5]. destruct (B2 _ H2) as [B4 B5]. rewrite A5, B5.
    split; [nia|]. split; [intros [-> ->]; reflexivity|]. intros E.
    destruct (times l (firstn d us)) as [|[|]]; [discriminate| |lia].
    destruct (times l' (skipn d us)) as [|[|]]; [discriminate|split; reflexivity|lia].
  - rewrite volumes_product, A3, B3. reflexivity.
Qed.

Lemma prob_either : forall d P P' p p', has_probability d P p -> has_probability d P' p' ->
  (forall us, draws d us -> P us -> P' us -> False) -> has_probability d (fun us => P us \/ P' us) (p + p').
Proof.
  intros d P P' p p' (l & A1 & A2 & A3) (l' & B1 & B2 & B3) Hex. exists (l ++ l'). split; [|split].
  - intros b Hb. apply in_app_or in Hb as [Hb|Hb]; auto.
  - intros us Hus. rewrite times_app. destruct (A2 us Hus) as [A4 A5]. destruct (B2 us Hus) as [B4 B5].
    specialize (Hex us Hus). rewrite A5, B5 in *. split; [|lia].
    destruct (times l us) as [|[|]]; [lia| |lia]. destruct (times l' us) as [|[|]]; [lia| |lia]. destruct Hex; reflexivity.
  - rewrite map_app, total_app, A3, B3. reflexivity.
Qed.

Lemma prob_some : forall d X (l : list X) (P : X -> list Q -> Prop) p, NoDup l ->
  (forall x, In x l -> has_probability d (P x) (p x)) ->
  (forall us x y, draws d us -> In x l -> In y l -> P x us -> P y us -> x = y) ->
  has_probability d (fun us => exists x, In x l /\ P x us) (total (map p l)).
Proof.
  intros d X l P p. induction l as [|x l IH]; intros Hnd Hp Hex.
  - apply prob_never. intros us _ (x & [] & _).
  - inversion Hnd as [|? ? Hx Hl]; subst. eapply prob_ext.
    + apply prob_either.
      * exact (Hp x (or_introl eq_refl)).
      * apply IH; [exact Hl|intros; apply Hp; right; assumption|]. intros us y z Hus Hy Hz. apply Hex; auto; right; assumption.
      * intros us Hus H1 (y & Hy & H2). apply Hx. rewrite (Hex us x y Hus (or_introl eq_refl) (or_intror Hy) H1 H2). exact Hy.
    + intros us _. split.
      * intros [H|(y & Hy & H)]; [exists x; split; [left; reflexivity|exact H]|exists y; split; [right|]; assumption].
      * intros (y & [<-|Hy] & H); [left; exact H|right; exists y; auto].
    + reflexivity.
Qed.

(** First an outcome [x], then an event whose probability depends on [x]. *)
Lemma prob_then : forall d d' X (l : list X) (A B : X -> list Q -> Prop) p q, NoDup l ->
  (forall x, In x l -> has_probability d (A x) (p x)) -> (forall x, In x l -> has_probability d' (B x) (q x)) ->
  (forall us x y, draws d us -> In x l -> In y l -> A x us -> A y us -> x = y) ->
  has_probability (d + d') (fun us => exists x, In x l /\ A x (firstn d us) /\ B x (skipn d us)) (total (map (fun x => p x * q x) l)).
Proof.
  intros d d' X l A B p q Hnd HA HB Hex. eapply prob_some.
  - exact Hnd.
  - intros x Hx. apply prob_both; auto.
  - intros us x y Hus Hx Hy [H1 _] [H2 _]. apply draws_split in Hus as [Hus _]. eapply Hex; eauto.
Qed.

(** ** There is only one probability *)

Definition points (N : positive) : list Q := map (fun k => Z.of_nat k # N) (seq 0 (Pos.to_nat N)).

Fixpoint grid (N : positive) (d : nat) : list (list Q) :=
  match d with
  | O => [[]]
  | S k => flat_map (fun x => map (cons x) (grid N k)) (points N)
  end.

Lemma points_unit : forall N x, In x (points N) -> 0 <= x /\ x < 1.
Proof.
  intros N x H. apply in_map_iff in H as (k & <- & Hk). apply in_seq in Hk. unfold Qle, Qlt. cbn [Qnum Qden]. nia.
Qed.

Lemma grid_draws : forall N d us, In us (grid N d) -> draws d us.
Proof.
  intros N. induction d as [|d IH]; intros us H; [destruct H as [<-|[]]; split; [reflexivity|constructor]|].
  cbn [grid] in H. apply in_flat_map in H as (x & Hx & H). apply in_map_iff in H as (t & <- & Ht).
  apply IH in Ht as [H1 H2]. split; [cbn; lia|constructor; [apply points_unit with N; exact Hx|exact H2]].
Qed.

(** A rational that is a multiple of [1/N]. *)
Definition on_grid (N : positive) (x : Q) : Prop := exists z, x == z # N.

Lemma on_grid_mult : forall N M x, on_grid N x -> on_grid (N * M) x.
Proof. intros N M x [z H]. exists (z * Zpos M)%Z. rewrite H. unfold Qeq. cbn [Qnum Qden]. lia. Qed.

Lemma common_grid : forall l : list Q, exists N, forall x, In x l -> on_grid N x.
Proof.
  induction l as [|x l [N IH]]; [exists 1%positive; intros ? []|]. exists (Qden x * N)%positive. intros y [<-|Hy].
  - apply on_grid_mult. exists (Qnum x). destruct x; reflexivity.
  - rewrite Pos.mul_comm. apply on_grid_mult. auto.
Qed.

Lemma count_seq : forall n a b, (a <= b)%nat -> (b <= n)%nat ->
  length (filter (fun k => Nat.leb a k && Nat.ltb k b) (seq 0 n)) = (b - a)%nat.
Proof.
  assert (G : forall n s a b, (a <= b)%nat ->
    length (filter (fun k => Nat.leb a k && Nat.ltb k b) (seq s n)) = (Nat.min b (s + n) - Nat.max a s)%nat).
  { induction n as [|n IH]; intros s a b H; cbn [seq filter length]; [lia|].
    destruct (Nat.leb_spec a s), (Nat.ltb_spec s b); cbn [andb length]; rewrite IH by assumption; lia. }
  intros n a b H1 H2. rewrite G by assumption. lia.
Qed.

Lemma count_points : forall N ab, on_grid N (fst ab) -> on_grid N (snd ab) -> 0 <= fst ab -> fst ab <= snd ab -> snd ab <= 1 ->
  inject_Z (Z.of_nat (length (filter (inside1 ab) (points N)))) == (snd ab - fst ab) * inject_Z (Zpos N).
Proof.
  intros N [lo hi] [a Ha] [b Hb] H0 H1 H2. cbn [fst snd] in *.
  assert (Ha0 : (0 <= a)%Z) by (rewrite Ha in H0; unfold Qle in H0; cbn in H0; lia).
  assert (Hb0 : (b <= Zpos N)%Z) by (rewrite Hb in H2; unfold Qle in H2; cbn in H2; lia).
  assert (Hab : (a <= b)%Z) by (rewrite Ha, Hb in H1; unfold Qle in H1; cbn in H1; nia).
  assert (E : length (filter (inside1 (lo, hi)) (points N)) =
              length (filter (fun k => Nat.leb (Z.to_nat a) k && Nat.ltb k (Z.to_nat b)) (seq 0 (Pos.to_nat N)))).
  { unfold points. induction (seq 0 (Pos.to_nat N)) as [|k l IH]; [reflexivity|]. cbn [map filter].
    assert (Hk : inside1 (lo, hi) (Z.of_nat k # N) = (Nat.leb (Z.to_nat a) k && Nat.ltb k (Z.to_nat b))).
    { apply eq_true_iff_eq. rewrite inside1_iff, andb_true_iff, Nat.leb_le, Nat.ltb_lt. cbn [fst snd].
      rewrite Ha, Hb. unfold Qle, Qlt. cbn [Qnum Qden]. nia. }
    rewrite Hk. destruct (Nat.leb (Z.to_nat a) k && Nat.ltb k (Z.to_nat b)); cbn [length]; congruence. }
  rewrite E, count_seq by lia. rewrite Ha, Hb. unfold Qeq, Qminus, Qplus, Qopp, Qmult, inject_Z. cbn [Qnum Qden]. nia.
Qed.

Definition boxes_on_grid (N : positive) (b : box) : Prop := forall ab, In ab b -> on_grid N (fst ab) /\ on_grid N (snd ab).

Lemma filter_map_cons : forall ab b x (g : list (list Q)),
  length (filter (fun us => inside (ab :: b) us) (map (cons x) g)) =
  if inside1 ab x then length (filter (fun us => inside b us) g) else 0%nat.
Proof.
  intros ab b x g. induction g as [|us g IH]; cbn [map filter]; [destruct (inside1 ab x); reflexivity|].
  rewrite inside_cons. destruct (inside1 ab x); cbn [andb]; [|exact IH].
  destruct (inside b us); cbn [length]; congruence.
Qed.

Lemma filter_flat_cons : forall ab b xs (g : list (list Q)),
  length (filter (fun us => inside (ab :: b) us) (flat_map (fun x => map (cons x) g) xs)) =
  (length (filter (inside1 ab) xs) * length (filter (fun us => inside b us) g))%nat.
Proof.
  intros ab b xs g. induction xs as [|x xs IH]; [reflexivity|]. cbn [flat_map].
  rewrite filter_app, app_length, filter_map_cons, IH. cbn [filter]. destruct (inside1 ab x); cbn [length]; lia.
Qed.

Lemma count_grid : forall N b d, box_in_cube d b -> boxes_on_grid N b ->
  inject_Z (Z.of_nat (length (filter (fun us => inside b us) (grid N d)))) == volume b * power (inject_Z (Zpos N)) d.
Proof.
  intros N. induction b as [|ab b IH]; intros d H Hg.
  - destruct H as [H _]. cbn in H. subst d. reflexivity.
  - destruct d as [|d]; [destruct H; discriminate|]. apply box_tail in H as (A & B & C & D).
    cbn [grid]. rewrite filter_flat_cons, Nat2Z.inj_mul, inject_Z_mult.
    destruct (Hg ab (or_introl eq_refl)) as [G1 G2]. rewrite count_points by assumption.
    rewrite (IH d D) by (intros x Hx; apply Hg; right; exact Hx).
    change (volume (ab :: b)) with ((snd ab - fst ab) * volume b). cbn [power]. ring.
Qed.

(** Both ways of counting the pairs of a grid point and a box that contains it. *)
Lemma count_pairs : forall (l : list box) (g : list (list Q)),
  inject_Z (Z.of_nat (total_nat (map (times l) g))) ==
  total (map (fun b => inject_Z (Z.of_nat (length (filter (fun us => inside b us) g)))) l).
Proof.
  intros l g. induction g as [|us g IH].
  - cbn. symmetry. apply total_zero. reflexivity.
  - cbn [map total_nat fold_right]. fold (total_nat (map (times l) g)). rewrite Nat2Z.inj_add, inject_Z_plus, IH. clear IH.
    unfold times. induction l as [|b l IH]; [reflexivity|]. cbn [map filter]. rewrite !total_cons, <- IH.
    destruct (inside b us); cbn [length]; rewrite ?Nat2Z.inj_succ; unfold Z.succ; rewrite ?inject_Z_plus; ring.
Qed.

Lemma tiling_count : forall d N boxes, (forall b, In b boxes -> box_in_cube d b) -> (forall b, In b boxes -> boxes_on_grid N b) ->
  inject_Z (Z.of_nat (total_nat (map (times boxes) (grid N d)))) == total (map volume boxes) * power (inject_Z (Zpos N)) d.
Proof.
  intros d N boxes H1 H2. rewrite count_pairs.
  rewrite (total_map_ext _ _ (fun b => power (inject_Z (Zpos N)) d * volume b)).
  - rewrite total_scale. ring.
  - intros b Hb. rewrite count_grid by auto. ring.
Qed.

Lemma power_pos : forall x n, 0 < x -> 0 < power x n.
Proof. induction n as [|n IH]; intros H; [reflexivity|]. cbn [power]. specialize (IH H). nra. Qed.

Lemma ends_on_grid : forall (boxes : list box), exists N, forall b, In b boxes -> boxes_on_grid N b.
Proof.
  intros boxes. destruct (common_grid (flat_map (fun ab => [fst ab; snd ab]) (concat boxes))) as [N H]. exists N.
  intros b Hb ab Hab. assert (In ab (concat boxes)) by (apply in_concat; exists b; auto).
  split; apply H; apply in_flat_map; exists ab; (split; [assumption|cbn; auto]).
Qed.

Lemma prob_unique : forall d P p q, has_probability d P p -> has_probability d P q -> p == q.
Proof.
  intros d P p q (l & A1 & A2 & A3) (l' & B1 & B2 & B3).
  destruct (ends_on_grid (l ++ l')) as [N HN].
  assert (E : map (times l) (grid N d) = map (times l') (grid N d)).
  { apply map_ext_in. intros us Hus. apply grid_draws in Hus. destruct (A2 us Hus) as [A4 A5]. destruct (B2 us Hus) as [B4 B5].
    rewrite A5 in B5. destruct (times l us) as [|[|]], (times l' us) as [|[|]]; lia. }
  assert (EA := tiling_count d N l A1 (fun b Hb => HN b (in_or_app _ _ _ (or_introl Hb)))).
  assert (EB := tiling_count d N l' B1 (fun b Hb => HN b (in_or_app _ _ _ (or_intror Hb)))).
  rewrite E, EB, A3, B3 in EA. assert (HP := power_pos (inject_Z (Zpos N)) d eq_refl).
  apply (Qmult_inj_r q p (power (inject_Z (Zpos N)) d)) in EA; [symmetry; exact EA|lra].
Qed.

Lemma prob_bounds : forall d P p, has_probability d P p -> 0 <= p /\ p <= 1.
Proof.
  intros d P p H. destruct H as (l & A1 & A2 & A3). split.
  - rewrite <- A3. apply total_nonneg. intros x Hx. apply in_map_iff in Hx as (b & <- & Hb). eapply volume_nonneg; eauto.
  - destruct (ends_on_grid l) as [N HN]. assert (EA := tiling_count d N l A1 HN).
    assert (EB := tiling_count d N [repeat (0,1) d]). rewrite A3 in EA.
    assert (HP := power_pos (inject_Z (Zpos N)) d eq_refl).
    assert (L : inject_Z (Z.of_nat (total_nat (map (times l) (grid N d)))) <= power (inject_Z (Zpos N)) d).
    { assert (W := EB). rewrite <- (Qmult_1_l (power (inject_Z (Zpos N)) d)).
      assert (V : total (map volume [repeat (0, 1) d]) == 1).
      { cbn [map]. rewrite total_cons, whole_volume. unfold total; cbn; reflexivity. }
      rewrite <- V, <- W.
      - rewrite <- Zle_Qle. apply inj_le. clear -A2.
        assert (G : forall g, (forall us, In us g -> draws d us) ->
          (total_nat (map (times l) g) <= total_nat (map (times [repeat (0%Q, 1%Q) d]) g))%nat).
        { induction g as [|us g IH]; intros Hg; [apply le_n|]. cbn [map total_nat fold_right].
          fold (total_nat (map (times l) g)). fold (total_nat (map (times [repeat (0%Q, 1%Q) d]) g)).
          specialize (IH (fun x Hx => Hg x (or_intror Hx))). specialize (Hg us (or_introl eq_refl)).
          assert (times [repeat (0%Q, 1%Q) d] us = 1%nat).
          { unfold times. cbn [filter]. rewrite whole_inside by assumption. reflexivity. }
          destruct (A2 us Hg) as [T _]. lia. }
        apply G. intros us. apply grid_draws.
      - intros b [<-|[]]. apply whole_box.
      - intros b [<-|[]] ab Hab. apply repeat_spec in Hab. subst ab. cbn. split; [exists 0%Z; reflexivity|exists (Zpos N); unfold Qeq; cbn; lia]. }
    rewrite EA in L. nra.
Qed.

(** ** Events of one draw *)

Lemma entry_at : forall l j x, at_ l j x -> entry l j = x.
Proof. intros l j x H. unfold entry. apply nth_error_nth. exact H. Qed.

Lemma entry_out : forall l j, (length l <= j)%nat -> entry l j = 0.
Proof. intros. unfold entry. apply nth_overflow. assumption. Qed.

Lemma mass_nonneg : forall p i, nonneg p -> 0 <= mass_before p i.
Proof.
  intros p i H. unfold mass_before. apply total_nonneg. intros x Hx. apply in_at in Hx as [k Hk].
  unfold at_ in Hk. rewrite nonneg_Forall, Forall_forall in H. apply H. rewrite <- (firstn_skipn i p). apply in_or_app. left.
  eapply nth_error_In; eauto.
Qed.

Lemma mass_le : forall p i, is_pdf p -> mass_before p i <= 1.
Proof.
  intros p i [H1 H2]. rewrite <- H2. rewrite <- (firstn_skipn i p) at 2. rewrite total_app. unfold mass_before.
  assert (0 <= total (skipn i p)); [|lra]. apply total_nonneg. intros x Hx. rewrite nonneg_Forall, Forall_forall in H1. apply H1.
  rewrite <- (firstn_skipn i p). apply in_or_app. right. exact Hx.
Qed.

Lemma prob_selects : forall p j, is_pdf p -> has_probability 1 (fun us => exists u, us = [u] /\ selects p u j) (entry p j).
Proof.
  intros p j Hp. destruct (Nat.lt_ge_cases j (length p)) as [Hj|Hj].
  - destruct (lt_at _ p j Hj) as [x Hx]. rewrite (entry_at _ _ _ Hx). assert (S1 := mass_step p j x Hx).
    assert (0 <= x) by (destruct Hp as [Hn _]; eapply Hn; eauto).
    apply prob_ext with (P := fun us => exists u, us = [u] /\ selects p u j) (p := mass_before p (S j) - mass_before p j);
      [apply prob_interval|reflexivity|rewrite S1; ring].
    + apply mass_nonneg, Hp.
    + lra.
    + apply mass_le; exact Hp.
    + intros u Hu0 Hu1. unfold selects. split.
      * intros (v & [= <-] & _ & H1). exact H1.
      * intros H1. exists u. auto.
  - rewrite entry_out by assumption. apply prob_never. intros us _ (u & _ & Hs & _). lia.
Qed.

Lemma selects_fun : forall p u i j, nonneg p -> selects p u i -> selects p u j -> i = j.
Proof.
  intros p u i j Hp (A1 & A2 & A3) (B1 & B2 & B3).
  assert (M : forall a b, (a <= b)%nat -> mass_before p a <= mass_before p b).
  { intros a b Hab. unfold mass_before. replace (firstn b p) with (firstn a p ++ firstn (b - a) (skipn a p)).
    - rewrite total_app. assert (0 <= total (firstn (b - a) (skipn a p))); [|lra].
      apply total_nonneg. intros x Hx. rewrite nonneg_Forall, Forall_forall in Hp. apply Hp.
      rewrite <- (firstn_skipn a p). apply in_or_app. right. rewrite <- (firstn_skipn (b - a) (skipn a p)). apply in_or_app. left. exact Hx.
    - replace b with (a + (b - a))%nat at 2 by lia. symmetry. rewrite <- (firstn_skipn a p) at 1.
      rewrite firstn_app. rewrite firstn_firstn. replace (Nat.min (a + (b - a)) a) with a by lia. f_equal.
      rewrite firstn_length. destruct (Nat.le_gt_cases a (length p)).
      + f_equal. lia.
      + rewrite (skipn_all2 p) by lia. rewrite !firstn_nil. reflexivity. }
  destruct (Nat.lt_trichotomy i j) as [H|[H|H]]; [|exact H|].
  - specialize (M (S i) j H). lra.
  - specialize (M (S j) i H). lra.
Qed.
