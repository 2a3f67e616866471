(** * Proofs about the removal of fake transitions. *)

From Coq Require Import List ZArith QArith Bool Lia Arith Sorted.
From Verif Require Import Prelude PreludeFacts SpecBase SpecBaseFacts Parse_Model Parse_Spec Parse_Proofs Parse_TpmProofs
  Parse_SemiProofs Parse_GroupProofs Atus_Model Atus_Spec Atus_Proofs Atus_StateProofs.
Import ListNotations.
Local Open Scope nat_scope.

Set Implicit Arguments.

(** ** Sorted lines *)

Definition line_lt (strict : bool) (x y : nat * nat) : Prop :=
  fst x < fst y \/ fst x = fst y /\ (if strict then snd x < snd y else snd x <= snd y).

Lemma line_lt_trans : forall strict, Relations_1.Transitive (line_lt strict).
Proof. intros [] x y z; unfold line_lt; simpl; lia. Qed.

Lemma sorted_adjacent : forall strict times persons, length persons = length times ->
  (sorted_persons persons && sorted_times strict times persons = true <-> Sorted (line_lt strict) (combine persons times)).
Proof.
  intros strict times persons. unfold sorted_persons, sorted_times. revert times.
  induction persons as [|p persons IH]; intros [|t times] L; simpl in L; try discriminate.
  - simpl. split; [constructor|auto].
  - destruct persons as [|p' persons], times as [|t' times]; simpl in L; try discriminate.
    + simpl. split; [repeat constructor|auto].
    + cbn [combine tl forallb fst snd]. specialize (IH (t' :: times) ltac:(simpl; lia)). cbn [combine tl] in IH.
      set (A := forallb (fun pq : nat * nat => fst pq <=? snd pq) (combine (p' :: persons) persons)) in *.
      set (B := forallb _ _) in IH at 1. set (B' := forallb _ _) at 1. change B' with B. clear B'.
      rewrite !andb_true_iff in *. split.
      * intros [[H1 H2] [H3 H4]]. constructor; [apply IH; auto|]. constructor. unfold line_lt; cbn [fst snd].
        apply Nat.leb_le in H1. destruct (Nat.eqb_spec p p'); cbn [negb orb] in H3; [|lia].
        right. split; auto. destruct strict; [apply Nat.ltb_lt in H3|apply Nat.leb_le in H3]; auto.
      * intro H. inversion H as [|? ? H1 H2]; subst. apply IH in H1. destruct H1 as [H1 H3]. inversion H2 as [|? ? H4]; subst.
        unfold line_lt in H4; cbn [fst snd] in H4. repeat split; auto.
        -- apply Nat.leb_le. lia.
        -- destruct (Nat.eqb_spec p p'); cbn [negb orb]; auto. destruct strict; [apply Nat.ltb_lt|apply Nat.leb_le]; lia.
Qed.

Lemma strongly_nth : forall A (R : A -> A -> Prop) l, StronglySorted R l <->
  (forall k k' x y, k < k' -> at_ l k x -> at_ l k' y -> R x y).
Proof.
  intros A R l. split.
  - induction 1 as [|a l Hs IH Ha]; intros k k' x y Hk H1 H2; [destruct k; discriminate|].
    destruct k' as [|k']; [lia|]. destruct k as [|k].
    + unfold at_ in H1, H2. simpl in *. injection H1 as <-. rewrite Forall_forall in Ha. apply Ha. eapply nth_error_In; eauto.
    + apply (IH k k'); auto. lia.
  - induction l as [|a l IH]; intro H; constructor.
    + apply IH. intros k k' x y Hk H1 H2. apply (H (S k) (S k')); auto. lia.
    + apply Forall_forall. intros y Hy. apply in_at in Hy. destruct Hy as [k Hk]. apply (H 0 (S k)); auto; [lia|reflexivity].
Qed.

Definition sorted_by (strict : bool) (times persons : list nat) : Prop :=
  if strict then by_person_strictly times persons else by_person times persons.

Lemma sorted_iff : forall strict times persons, length persons = length times ->
  (sorted_persons persons && sorted_times strict times persons = true <-> sorted_by strict times persons).
Proof.
  intros strict times persons L. rewrite (sorted_adjacent strict times persons L).
  assert (E : Sorted (line_lt strict) (combine persons times) <-> StronglySorted (line_lt strict) (combine persons times)).
  { split; [apply Sorted_StronglySorted, line_lt_trans|apply StronglySorted_Sorted]. }
  rewrite E, strongly_nth. clear E.
  assert (G : forall k p t, at_ (combine persons times) k (p, t) <-> at_ persons k p /\ at_ times k t).
  { intros k p t. unfold at_. rewrite combine_nth_error. destruct (nth_error persons k), (nth_error times k); split;
      try (intro H; congruence); try (intros [H1 H2]; congruence). intro H; split; congruence. }
  split.
  - intro H. unfold sorted_by. destruct strict; intros k k' p p' Hk H1 H2;
      (destruct (lt_at _ times k) as [t Ht]; [rewrite <- L; eapply at_lt; eauto|]);
      (destruct (lt_at _ times k') as [t' Ht']; [rewrite <- L; eapply at_lt; eauto|]);
      (destruct (H k k' (p, t) (p', t') Hk) as [HH|[HH1 HH2]]; [apply G; auto|apply G; auto|left; auto|]);
      right; split; auto; intros u u' Hu Hu'; simpl in HH2; unfold at_ in *; replace u with t by congruence; replace u' with t' by congruence; auto.
  - intros H k k' [p t] [p' t'] Hk H1 H2. apply G in H1, H2. destruct H1 as [H1 H1'], H2 as [H2 H2']. unfold line_lt; cbn [fst snd].
    unfold sorted_by in H. destruct strict; destruct (H k k' p p' Hk H1 H2) as [HH|[HH1 HH2]]; auto.
Qed.

(** ** The mask *)

Lemma mask_ok : forall times persons news nt np ns mask, mask_fake times persons news nt np ns = Ok mask ->
  (exists n, size nt times n) /\ (exists m, size np persons m) /\ (exists k, size ns news k) /\ length persons = length times /\ length news = length times /\
  by_person times persons /\ mask = real_from None (combine persons news).
Proof.
  intros times persons news nt np ns mask H. unfold mask_fake in H.
  destruct (size_of nt times) as [n|] eqn:E1; [|discriminate]. cbn [bind] in H.
  destruct (size_of np persons) as [m|] eqn:E2; [|discriminate]. cbn [bind] in H.
  destruct (size_of ns news) as [k|] eqn:E3; [|discriminate]. cbn [bind] in H.
  destruct (same_lengths times persons news) as [[]|] eqn:E4; [|discriminate]. cbn [bind] in H.
  destruct (sorted_persons persons) eqn:E5; [|discriminate]. cbn [require bind] in H.
  destruct (sorted_times false times persons) eqn:E6; [|discriminate]. cbn [require bind] in H. injection H as <-.
  apply size_ok in E1, E2, E3. apply same_lengths_ok in E4. destruct E4 as [L1 L2].
  repeat split; eauto. apply (sorted_iff false times persons L1). rewrite E5, E6. auto.
Qed.

Lemma mask_total : forall times persons news nt np ns n m k, size nt times n -> size np persons m -> size ns news k ->
  length persons = length times -> length news = length times -> by_person times persons ->
  mask_fake times persons news nt np ns = Ok (real_from None (combine persons news)).
Proof.
  intros times persons news nt np ns n m k H1 H2 H3 L1 L2 H. unfold mask_fake. apply size_ok in H1, H2, H3.
  rewrite H1, H2, H3. cbn [bind]. rewrite (proj2 (same_lengths_ok _ _ _)) by auto. cbn [bind].
  apply (sorted_iff false times persons L1) in H. apply andb_true_iff in H. destruct H as [-> ->]. reflexivity.
Qed.

Lemma mask_refused : forall times persons news nt np ns n m k, size nt times n -> size np persons m -> size ns news k ->
  length persons = length times -> length news = length times -> ~ by_person times persons ->
  mask_fake times persons news nt np ns = Err AssertionError.
Proof.
  intros times persons news nt np ns n m k H1 H2 H3 L1 L2 H. unfold mask_fake. apply size_ok in H1, H2, H3.
  rewrite H1, H2, H3. cbn [bind]. rewrite (proj2 (same_lengths_ok _ _ _)) by auto. cbn [bind].
  destruct (sorted_persons persons) eqn:E5; [|reflexivity]. cbn [require bind].
  destruct (sorted_times false times persons) eqn:E6; [|reflexivity]. exfalso. apply H.
  apply (sorted_iff false times persons L1). rewrite E5, E6. auto.
Qed.

Lemma real_from_length : forall l prev, length (real_from prev l) = length l.
Proof. induction l as [|[p x] l IH]; intro prev; simpl; auto. Qed.

Lemma real_from_at : forall l prev k b, at_ (real_from prev l) k b ->
  exists p x, at_ l k (p, x) /\
    b = match (match k with 0 => prev | S j => nth_error l j end) with Some (p0, x0) => negb (p0 =? p) || negb (x0 =? x) | None => true end.
Proof.
  induction l as [|[p x] l IH]; intros prev k b H; [destruct k; discriminate|].
  destruct k as [|k]; unfold at_ in H; cbn [real_from nth_error] in H.
  - injection H as <-. exists p, x. split; reflexivity.
  - destruct (IH _ _ _ H) as (p' & x' & H1 & ->). exists p', x'. split; [exact H1|]. destruct k; reflexivity.
Qed.

Lemma mask_real : forall times persons news k b, length persons = length times -> length news = length times -> by_person times persons ->
  at_ (real_from None (combine persons news)) k b -> (b = true <-> real persons news k).
Proof.
  intros times persons news k b L1 L2 Hs H. destruct (real_from_at _ _ H) as (p & x & H1 & ->).
  unfold at_ in H1. rewrite combine_nth_error in H1. destruct (nth_error persons k) as [p'|] eqn:Hp; [|discriminate].
  destruct (nth_error news k) as [x'|] eqn:Hx; [|discriminate]. injection H1 as -> ->.
  destruct k as [|k].
  - split; auto. intros _. exists p, x. repeat split; auto. left. intros k' Hk'. lia.
  - destruct (lt_at _ persons k) as [p0 Hp0]; [assert (S k < length persons) by (apply nth_error_Some; congruence); lia|].
    destruct (lt_at _ news k) as [x0 Hx0]; [assert (S k < length news) by (apply nth_error_Some; congruence); lia|].
    rewrite combine_nth_error. unfold at_ in Hp0, Hx0. rewrite Hp0, Hx0. split.
    + intro E. exists p, x. split; auto. split; auto. destruct (Nat.eqb_spec p0 p) as [->|Hne].
      * right. destruct (Nat.eqb_spec x0 x) as [|Hnx]; [discriminate|]. exists k, x0. repeat split; auto. intros; lia.
      * left. intros k' Hk' Hp'. assert (k' <> k) by (intros ->; unfold at_ in Hp'; congruence).
        destruct (Hs k' k p p0) as [|[]]; auto; try lia. destruct (Hs k (S k) p0 p) as [|[]]; auto; lia.
    + intros (q & y & Hq & Hy & [Hf|(k' & x' & Hk' & Hp' & Hx' & Hne & Hb)]).
      * destruct (Nat.eqb_spec p0 p) as [->|]; auto. exfalso. unfold at_ in Hq. assert (q = p) by congruence. subst q. apply (Hf k); auto.
      * unfold at_ in *. assert (q = p) by congruence. assert (y = x) by congruence. subst q y.
        destruct (Nat.eqb_spec p0 p) as [->|]; auto. assert (k' = k).
        { destruct (Nat.eq_dec k' k); auto. exfalso. apply (Hb k); auto; lia. }
        subst k'. replace x' with x0 in Hne by congruence. destruct (Nat.eqb_spec x0 x); auto.
Qed.

(** ** Selections *)

Lemma kept_compress : forall A mask (l : list A), kept mask l = compress mask l.
Proof. unfold kept. induction mask as [|[] mask IH]; intros [|x l]; simpl; auto; rewrite ?IH; auto. Qed.

Lemma compress_combine : forall A B mask (l : list A) (l' : list B), compress mask (combine l l') = combine (compress mask l) (compress mask l').
Proof.
  induction mask as [|[] mask IH]; intros [|x l] [|y l']; simpl; auto; rewrite ?IH; auto.
  destruct (compress mask l); auto.
Qed.

Lemma compress_in : forall A mask (l : list A) x, In x (compress mask l) -> In x l.
Proof.
  induction mask as [|[] mask IH]; intros [|y l] x H; simpl in *; try contradiction; auto. destruct H; auto.
Qed.

Lemma compress_same_length : forall A B mask (l : list A) (l' : list B), length l' = length l -> length (compress mask l') = length (compress mask l).
Proof. induction mask as [|[] mask IH]; intros [|x l] [|y l'] H; simpl in *; try discriminate; auto. Qed.

Lemma compress_sorted : forall A (R : A -> A -> Prop) mask l, StronglySorted R l -> StronglySorted R (compress mask l).
Proof.
  intros A R. induction mask as [|b mask IH]; intros [|x l] H; simpl; try constructor.
  inversion H as [|? ? H1 H2]; subst. destruct b; auto. constructor; auto.
  apply Forall_forall. intros y Hy. rewrite Forall_forall in H2. apply H2. eapply compress_in; eauto.
Qed.

Lemma by_person_sorted : forall times persons, length persons = length times ->
  (by_person times persons <-> StronglySorted (line_lt false) (combine persons times)).
Proof.
  intros times persons L. rewrite <- (sorted_iff false times persons L), (sorted_adjacent false times persons L).
  split; [apply Sorted_StronglySorted, line_lt_trans|apply StronglySorted_Sorted].
Qed.

Lemma kept_sorted : forall mask times persons, length persons = length times -> by_person times persons ->
  by_person (compress mask times) (compress mask persons).
Proof.
  intros mask times persons L H. apply by_person_sorted; [apply compress_same_length; auto|].
  rewrite <- compress_combine. apply compress_sorted. apply by_person_sorted; auto.
Qed.

Lemma real_again : forall l prev, real_from prev (compress (real_from prev l) l) = repeat true (length (compress (real_from prev l) l)).
Proof.
  induction l as [|[p x] l IH]; intro prev; [reflexivity|]. cbn [real_from compress].
  destruct (match prev with Some (p0, x0) => negb (p0 =? p) || negb (x0 =? x) | None => true end) eqn:E.
  - cbn [real_from length repeat]. rewrite E, IH. reflexivity.
  - destruct prev as [[p0 x0]|]; [|discriminate]. apply orb_false_iff in E. destruct E as [E1 E2].
    apply negb_false_iff, Nat.eqb_eq in E1, E2. subst. apply IH.
Qed.

(** ** The same diaries *)

Definition tline : Type := (nat * nat * nat)%type.

(** State of the last line of [p] up to time [t]. *)
Fixpoint lastv (p t : nat) (l : list tline) : option nat :=
  match l with
  | [] => None
  | (i, q, x) :: r => match lastv p t r with Some y => Some y | None => if (q =? p) && (i <=? t) then Some x else None end
  end.

Lemma zip_at : forall times persons news k t p x, nth_error (zip3 times persons news) k = Some (t, p, x) <-> trans times persons news k t p x.
Proof.
  intros. unfold zip3, trans, at_. rewrite !combine_nth_error.
  destruct (nth_error times k), (nth_error persons k), (nth_error news k); split; try (intro; congruence); try (intros (? & ? & ?); congruence).
  intro E. repeat split; congruence.
Qed.

Lemma lastv_some : forall p t l x, lastv p t l = Some x ->
  exists k i, nth_error l k = Some (i, p, x) /\ i <= t /\ forall k' i' x', nth_error l k' = Some (i', p, x') -> i' <= t -> k' <= k.
Proof.
  induction l as [|[[i q] y] l IH]; intros x H; [discriminate|]. cbn [lastv] in H. destruct (lastv p t l) as [w|] eqn:E.
  - injection H as ->. destruct (IH x eq_refl) as (k & j & H1 & H2 & H3). exists (S k), j. split; auto. split; auto.
    intros [|k'] i' x' Hk' Hi'; [lia|]. specialize (H3 k' i' x' Hk' Hi'). lia.
  - destruct ((q =? p) && (i <=? t)) eqn:B; [|discriminate]. injection H as ->. apply andb_true_iff in B. destruct B as [B1 B2].
    apply Nat.eqb_eq in B1. apply Nat.leb_le in B2. subst q. exists 0, i. split; auto. split; auto.
    intros [|k'] i' x' Hk' Hi'; auto. exfalso. clear IH. revert k' Hk' E. induction l as [|[[i2 q2] y2] l IH]; intros [|k'] Hk' E; try discriminate; simpl in *.
    + injection Hk' as -> -> ->. rewrite Nat.eqb_refl in E. replace (i' <=? t) with true in E by (symmetry; apply Nat.leb_le; auto).
      destruct (lastv p t l); discriminate.
    + apply (IH k' Hk'). destruct (lastv p t l); [discriminate|auto].
Qed.

Lemma lastv_none : forall p t l, lastv p t l = None -> forall k i x, nth_error l k = Some (i, p, x) -> t < i.
Proof.
  induction l as [|[[i q] y] l IH]; intros H k j x Hk; [destruct k; discriminate|]. cbn [lastv] in H.
  destruct (lastv p t l) as [w|]; [discriminate|]. destruct k as [|k]; simpl in Hk.
  - injection Hk as -> -> ->. rewrite Nat.eqb_refl in H. cbn [andb] in H. destruct (Nat.leb_spec j t); [discriminate|auto].
  - eapply IH; eauto.
Qed.

Lemma state_fun : forall times persons news initial p t x y, state_at times persons news initial p t x -> state_at times persons news initial p t y -> x = y.
Proof.
  intros times persons news initial p t x y [(k & i & H1 & H2 & H3)|[H1 H2]] [(k' & i' & G1 & G2 & G3)|[G1 G2]].
  - destruct (H3 _ _ _ G1 G2) as [A|[A1 A2]], (G3 _ _ _ H1 H2) as [B|[B1 B2]]; try lia.
    assert (k = k') by lia. subst. destruct H1 as (_ & _ & H1), G1 as (_ & _ & G1). eapply at_fun; eauto.
  - apply G1 in H1. lia.
  - apply H1 in G1. lia.
  - eapply at_fun; eauto.
Qed.

Lemma state_lastv : forall times persons news initial p t x, by_person times persons ->
  (state_at times persons news initial p t x <->
   match lastv p t (zip3 times persons news) with Some y => x = y | None => at_ initial p x end).
Proof.
  intros times persons news initial p t x S.
  assert (G : forall y, lastv p t (zip3 times persons news) = Some y -> state_at times persons news initial p t y).
  { intros y E. apply lastv_some in E. destruct E as (k & i & H1 & H2 & H3). apply zip_at in H1. left. exists k, i. split; auto. split; auto.
    intros k' i' x' Hk' Hi'. assert (Hle : k' <= k) by (apply (H3 k' i' x'); auto; apply zip_at; auto).
    destruct (Nat.eq_dec k' k) as [->|Hne].
    - right. split; auto. destruct Hk' as (A & _), H1 as (B & _). eapply at_fun; eauto.
    - destruct Hk' as (A1 & A2 & _), H1 as (B1 & B2 & _). destruct (S k' k p p ltac:(lia) A2 B2) as [|[_ HS]]; [lia|].
      specialize (HS i' i A1 B1). lia. }
  destruct (lastv p t (zip3 times persons news)) as [y|] eqn:E.
  - specialize (G y eq_refl). split; [intro H; eapply state_fun; eauto|intros ->; auto].
  - assert (N : forall k i x', trans times persons news k i p x' -> t < i) by (intros k i x' H; eapply lastv_none; eauto; apply zip_at; eauto).
    split; [|intro H; right; auto]. intros [(k & i & H1 & H2 & _)|[_ H]]; auto. apply N in H1. lia.
Qed.

Definition px (x : tline) : nat * nat := (snd (fst x), snd x).
Definition tline_le (x y : tline) : Prop := line_lt false (snd (fst x), fst (fst x)) (snd (fst y), fst (fst y)).

Lemma lastv_in : forall p t l y, lastv p t l = Some y -> exists i, In (i, p, y) l /\ i <= t.
Proof. intros p t l y H. apply lastv_some in H. destruct H as (k & i & H1 & H2 & _). exists i. split; auto. eapply nth_error_In; eauto. Qed.

Lemma lastv_kept : forall p t l prev, StronglySorted tline_le l ->
  match lastv p t (compress (real_from prev (map px l)) l) with
  | Some y => lastv p t l = Some y
  | None => lastv p t l = None \/ exists x0, prev = Some (p, x0) /\ lastv p t l = Some x0
  end.
Proof.
  induction l as [|[[i q] x] l IH]; intros prev S; [left; reflexivity|].
  inversion S as [|? ? S1 S2]; subst. cbn [map px fst snd real_from compress].
  specialize (IH (Some (q, x)) S1).
  destruct (match prev with Some (p0, x0) => negb (p0 =? q) || negb (x0 =? x) | None => true end) eqn:E.
  - cbn [lastv]. destruct (lastv p t (compress (real_from (Some (q, x)) (map px l)) l)) as [y|].
    + rewrite IH. reflexivity.
    + destruct IH as [IH|(x0 & E0 & IH)]; rewrite IH.
      * destruct ((q =? p) && (i <=? t)); [reflexivity|left; reflexivity].
      * injection E0 as -> ->. rewrite Nat.eqb_refl. cbn [andb].
        destruct (lastv_in _ _ _ IH) as (j & Hj & Hjt). rewrite Forall_forall in S2. specialize (S2 _ Hj). unfold tline_le, line_lt in S2; cbn [fst snd] in S2.
        replace (i <=? t) with true by (symmetry; apply Nat.leb_le; lia). reflexivity.
  - destruct prev as [[p0 x0]|]; [|discriminate]. apply orb_false_iff in E. destruct E as [E1 E2].
    apply negb_false_iff, Nat.eqb_eq in E1, E2. subst p0 x0. cbn [lastv].
    destruct (lastv p t (compress (real_from (Some (q, x)) (map px l)) l)) as [y|].
    + rewrite IH. reflexivity.
    + destruct IH as [IH|(x0 & E0 & IH)]; rewrite IH.
      * destruct (Nat.eqb_spec q p) as [->|]; cbn [andb]; [|left; reflexivity]. destruct (i <=? t); [right; exists x; auto|left; auto].
      * right. exists x0. auto.
Qed.

Lemma zip_sorted : forall times persons news, length persons = length times -> length news = length times -> by_person times persons ->
  StronglySorted tline_le (zip3 times persons news).
Proof.
  intros times persons news L1 L2 S. apply by_person_sorted in S; auto. apply strongly_nth. rewrite strongly_nth in S.
  intros k k' [[t p] x] [[t' p'] x'] Hk H1 H2. apply zip_at in H1, H2. destruct H1 as (A1 & A2 & _), H2 as (B1 & B2 & _).
  unfold tline_le; cbn [fst snd]. apply (S k k'); auto; unfold at_ in *; rewrite combine_nth_error.
  - rewrite A2, A1. auto.
  - rewrite B2, B1. auto.
Qed.

Lemma zip_px : forall times persons news, length persons = length times -> length news = length times ->
  map px (zip3 times persons news) = combine persons news.
Proof.
  unfold zip3. induction times as [|t times IH]; intros [|p persons] [|x news] L1 L2; simpl in *; try discriminate; auto.
  rewrite IH by lia. reflexivity.
Qed.

Lemma kept_state : forall times persons news initial mask p t x, length persons = length times -> length news = length times -> by_person times persons ->
  mask = real_from None (combine persons news) ->
  (state_at (compress mask times) (compress mask persons) (compress mask news) initial p t x <-> state_at times persons news initial p t x).
Proof.
  intros times persons news initial mask p t x L1 L2 S ->. set (mask := real_from None (combine persons news)).
  rewrite (@state_lastv times) by auto. rewrite state_lastv by (apply kept_sorted; auto).
  assert (E : zip3 (compress mask times) (compress mask persons) (compress mask news) = compress mask (zip3 times persons news)).
  { unfold zip3. rewrite <- !compress_combine. reflexivity. }
  rewrite E. pose proof (@lastv_kept p t (zip3 times persons news) None (@zip_sorted times persons news L1 L2 S)) as K. rewrite zip_px in K by auto. fold mask in K. unfold tline in K.
  destruct (lastv p t (compress mask (zip3 times persons news))) as [y|]; [rewrite K; reflexivity|]. destruct K as [K|(x0 & E0 & _)]; [rewrite K; reflexivity|discriminate].
Qed.

(** The first line of every person is kept. *)
Lemma kept_person : forall l prev p x, In (p, x) l -> (match prev with Some (p0, _) => p0 <> p | None => True end) ->
  exists x', In (p, x') (compress (real_from prev l) l).
Proof.
  induction l as [|[q y] l IH]; intros prev p x Hin Hp; [destruct Hin|]. cbn [real_from compress].
  destruct (Nat.eq_dec q p) as [->|Hne].
  - assert (E : (match prev with Some (p0, x0) => negb (p0 =? p) || negb (x0 =? y) | None => true end) = true).
    { destruct prev as [[p0 x0]|]; auto. destruct (Nat.eqb_spec p0 p); [congruence|reflexivity]. }
    rewrite E. exists y. left; auto.
  - destruct Hin as [E|Hin]; [congruence|]. destruct (IH (Some (q, y)) p x Hin Hne) as [x' Hx'].
    destruct (match prev with Some (p0, x0) => negb (p0 =? q) || negb (x0 =? y) | None => true end); exists x'; [right|]; auto.
Qed.

Lemma size_sub : forall given l l' n, size given l n -> (forall x, In x l' -> In x l) -> l' <> [] ->
  (given = None -> In (n - 1) l') -> size given l' n.
Proof. intros [g|] l l' n H1 H2 H3 H4; cbn in *; [destruct H1 as (-> & _ & H1); auto|]. destruct H1 as (_ & H0 & H1); auto. Qed.

Lemma size_pos : forall given l n, size given l n -> l <> [].
Proof. intros [g|] l n H; cbn in H; [tauto|]. destruct H as (H & _). intros ->; destruct H. Qed.

Lemma kept_same : forall times persons news nt np ns mask initial n np' ns' rows,
  mask_fake times persons news nt np ns = Ok mask ->
  transitions_to_states times persons news (Some initial) (Some n) np' ns' = Ok rows ->
  transitions_to_states (compress mask times) (compress mask persons) (compress mask news) (Some initial) (Some n) np' ns' = Ok rows.
Proof.
  intros times persons news nt np ns mask initial n np' ns' rws Hm Hs.
  apply mask_ok in Hm. destruct Hm as (_ & _ & _ & L1 & L2 & S & ->). set (mask := real_from None (combine persons news)).
  destruct (states_inv _ _ _ _ _ _ _ Hs) as (n' & m & k & T1 & T2 & T3 & _ & _ & T4 & T5 & T6 & T7 & V).
  cbn [start_states] in *. assert (n' = n) by (cbn in T1; tauto). subst n'.
  assert (Lk1 : length (compress mask persons) = length (compress mask times)) by (apply compress_same_length; auto).
  assert (Lk2 : length (compress mask news) = length (compress mask times)) by (apply compress_same_length; auto).
  assert (Hpers : forall p, In p persons -> In p (compress mask persons)).
  { intros p Hp. apply in_at in Hp. destruct Hp as [j Hj]. destruct (lt_at _ news j) as [x Hx]; [rewrite L2, <- L1; eapply at_lt; eauto|].
    destruct (@kept_person (combine persons news) None p x) as [x' Hx']; auto.
    { apply nth_error_In with j. rewrite combine_nth_error. unfold at_ in *. rewrite Hj, Hx. auto. }
    fold mask in Hx'. rewrite compress_combine in Hx'. eapply in_combine_l; eauto. }
  assert (Nep : compress mask persons <> []).
  { apply size_pos in T2. destruct persons as [|p ps]; [congruence|]. specialize (Hpers p (or_introl eq_refl)). intros E. rewrite E in Hpers. destruct Hpers. }
  assert (Net : compress mask times <> []) by (destruct (compress mask persons), (compress mask times); simpl in *; congruence).
  assert (Nen : compress mask news <> []) by (destruct (compress mask news), (compress mask times); simpl in *; congruence).
  assert (S1 : size (Some n) (compress mask times) n) by (eapply size_sub; eauto; [intros; eapply compress_in; eauto|discriminate]).
  assert (S2 : size np' (compress mask persons) m).
  { eapply size_sub; eauto; [intros; eapply compress_in; eauto|]. intros ->. apply Hpers. cbn in T2. tauto. }
  assert (S3 : exists k', states_size ns' (compress mask news) (Some initial) = Ok k').
  { apply states_size_ok in T3. destruct T3 as [T3 T3']. destruct ns' as [g|].
    - exists k. apply states_size_ok. split; auto. eapply size_sub; eauto; [intros; eapply compress_in; eauto|discriminate].
    - exists (Datatypes.S (list_max_nat (compress mask news))). unfold states_size, size_of. rewrite (py_max_total Nen). reflexivity. }
  destruct S3 as [k' S3].
  destruct (@states_total (compress mask times) (compress mask persons) (compress mask news) (Some initial) (Some n) np' ns' n m k' S1 S2 S3 Lk1 Lk2 T4) as [out E].
  { intros j p x Hj. cbn [start_states]. apply zip_at in Hj. apply nth_error_In in Hj.
    unfold zip3 in Hj. rewrite <- !compress_combine in Hj. apply compress_in in Hj. apply in_at in Hj. destruct Hj as [j' Hj']. apply zip_at in Hj'. eapply T5; eauto. }
  rewrite E. f_equal. destruct (states_inv _ _ _ _ _ _ _ E) as (n2 & m2 & k2 & U1 & U2 & _ & _ & _ & _ & _ & U6 & U7 & W).
  cbn [start_states] in *. assert (n2 = n) by (cbn in U1; tauto). subst n2.
  assert (Em : m2 = m). { apply size_ok in U2. apply size_ok in S2. congruence. }
  apply (@table_ext _ rws out n); auto; [congruence|].
  intros p t x Hd. apply W. apply V in Hd. rewrite Em. destruct Hd as (D1 & D2 & D3). split; auto. split; auto.
  apply kept_state; auto.
Qed.

Lemma mask_again : forall times persons news nt np ns mask, mask_fake times persons news nt np ns = Ok mask ->
  mask_fake (compress mask times) (compress mask persons) (compress mask news) nt np ns = Ok (repeat true (length (compress mask times))).
Proof.
  intros times persons news nt np ns mask Hm. apply mask_ok in Hm. destruct Hm as ((n & S1) & (m & S2) & (k & S3) & L1 & L2 & S & ->).
  set (mask := real_from None (combine persons news)).
  assert (Lk1 : length (compress mask persons) = length (compress mask times)) by (apply compress_same_length; auto).
  assert (Lk2 : length (compress mask news) = length (compress mask times)) by (apply compress_same_length; auto).
  assert (Net : compress mask times <> []).
  { pose proof (@size_pos nt times n S1) as N1. destruct times as [|t times], persons as [|p persons], news as [|x news]; simpl in L1, L2; try discriminate; try congruence.
  }
  assert (Nep : compress mask persons <> []) by (destruct (compress mask persons), (compress mask times); simpl in *; congruence).
  assert (Nen : compress mask news <> []) by (destruct (compress mask news), (compress mask times); simpl in *; congruence).
  assert (G : forall given (l : list nat) n, size given l n -> compress mask l <> [] -> exists n', size given (compress mask l) n').
  { intros given l a Ha Hn. destruct given as [g|].
    - exists a. eapply size_sub; eauto; [intros; eapply compress_in; eauto|discriminate].
    - exists (Datatypes.S (list_max_nat (compress mask l))). apply size_ok. unfold size_of. rewrite (py_max_total Hn). reflexivity. }
  destruct (G _ _ _ S1 Net) as [n' S1']. destruct (G _ _ _ S2 Nep) as [m' S2']. destruct (G _ _ _ S3 Nen) as [k' S3'].
  rewrite (@mask_total _ _ _ nt np ns n' m' k') by (auto; apply kept_sorted; auto).
  f_equal. rewrite <- compress_combine. unfold mask at 1 2. rewrite real_again. f_equal. fold mask.
  rewrite compress_combine, combine_length, Lk1, Lk2. lia.
Qed.
