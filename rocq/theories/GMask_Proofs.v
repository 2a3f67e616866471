(** * Filters of the diaries. *)

From Coq Require Import String List ZArith QArith Bool Arith Lia Lqa.
From Coq Require Import ZifyBool ZifyNat.
From Verif Require Import Prelude PreludeFacts SpecBase SpecBaseFacts Appliance_Model Parse_Model Matrix_Proofs GMask_Model GMask_Spec.
Import ListNotations.
Local Open Scope Z_scope.

Definition both (P Q : record -> household -> person -> Prop) := fun r h p => P r h p /\ Q r h p.

Lemma map2_length_eq : forall A B C (f : A -> B -> C) l m, length l = length m -> length (map2 f l m) = length l.
Proof. induction l as [|x l IH]; intros [|y m] H; simpl in *; try discriminate; auto. Qed.

Lemma marks_conj : forall t m l P Q, marks t m P -> marks t l Q -> marks t (conj_mask m l) (both P Q).
Proof.
  intros t m l P Q [Lm Hm] [Ll Hl]. unfold conj_mask. split; [rewrite map2_length_eq; congruence|].
  intros i r h p Hi Hh Hp. unfold both. rewrite at_map2, <- (Hm i r h p Hi Hh Hp), <- (Hl i r h p Hi Hh Hp). split.
  - intros (x & y & Hx & Hy & E). symmetry in E. apply andb_prop in E as [-> ->]. auto.
  - intros [Hx Hy]. exists true, true. auto.
Qed.

Lemma marks_iff : forall t m P Q, (forall r h p, In r (t_records t) -> lives_in t r h -> written_by t r p -> (P r h p <-> Q r h p)) -> marks t m P -> marks t m Q.
Proof.
  intros t m P Q H [L Hm]. split; [exact L|]. intros i r h p Hi Hh Hp. rewrite (Hm i r h p Hi Hh Hp). apply H; auto. eapply at_in; eauto.
Qed.

Lemma marks_map : forall t f P, (forall r h p, In r (t_records t) -> lives_in t r h -> written_by t r p -> (f r = true <-> P r h p)) -> marks t (map f (t_records t)) P.
Proof.
  intros t f P H. split; [apply map_length|]. intros i r h p Hi Hh Hp. rewrite <- (H r h p (at_in _ _ _ _ Hi) Hh Hp), at_map. split.
  - intros (x & Hx & E). rewrite (at_fun _ _ _ _ _ Hi Hx). auto.
  - intro E. exists r. auto.
Qed.

Lemma marks_all : forall t, marks t (repeat true (length (t_records t))) (fun _ _ _ => True).
Proof.
  intro t. split; [apply repeat_length|]. intros i r h p Hi _ _. split; [auto|]. intros _. apply at_lt in Hi. unfold at_.
  rewrite nth_error_repeat; auto.
Qed.

Section Tables.
Variable t : tables.
Hypothesis W : well_formed t.

Lemma household_unique : forall r h h', lives_in t r h -> lives_in t r h' -> h = h'.
Proof.
  intros r h h' [H1 E1] [H2 E2]. destruct W as (Hid & _). apply in_at in H1 as [i Hi]. apply in_at in H2 as [j Hj].
  pose proof (Hid _ _ Hi). pose proof (Hid _ _ Hj). assert (i = j) by lia. subst j. eapply at_fun; eauto.
Qed.

Lemma household_id_unique : forall h h', In h (t_households t) -> In h' (t_households t) -> h_id h = h_id h' -> h = h'.
Proof.
  intros h h' H1 H2 E. destruct W as (Hid & _). apply in_at in H1 as [i Hi]. apply in_at in H2 as [j Hj].
  pose proof (Hid _ _ Hi). pose proof (Hid _ _ Hj). assert (i = j) by lia. subst j. eapply at_fun; eauto.
Qed.

Lemma nodup_map_inj : forall A B (f : A -> B) l, NoDup (map f l) -> forall x y, In x l -> In y l -> f x = f y -> x = y.
Proof.
  induction l as [|a l IH]; simpl; intros H x y Hx Hy E; [contradiction|]. inversion H; subst.
  destruct Hx as [-> | Hx], Hy as [-> | Hy]; auto.
  - exfalso. apply H2. rewrite E. apply in_map; auto.
  - exfalso. apply H2. rewrite <- E. apply in_map; auto.
Qed.

Lemma person_unique : forall r p p', written_by t r p -> written_by t r p' -> p = p'.
Proof. intros r p p' [H1 E1] [H2 E2]. destruct W as (_ & N & _). apply (nodup_map_inj _ _ p_id (t_persons t)); auto; congruence. Qed.

Lemma household_of_ok : forall r h, lives_in t r h -> household_of t r = Ok h.
Proof.
  intros r h [H E]. destruct W as (Hid & _). apply in_at in H as [i Hi]. pose proof (Hid _ _ Hi). unfold household_of.
  assert (Er : r_hh r - 1 = Z.of_nat i) by lia. rewrite Er.
  assert (X : (Z.of_nat i <? 0) = false) by lia. rewrite X, Nat2Z.id. unfold at_ in Hi. rewrite Hi. reflexivity.
Qed.

Lemma first_person_ok : forall ps id p, first_person ps id = Ok p -> In p ps /\ p_id p = id.
Proof.
  induction ps as [|a ps IH]; simpl; intros id p H; [discriminate|].
  destruct (Z.eqb_spec (p_id a) id); [injection H as <-; auto|]. apply IH in H. tauto.
Qed.

Lemma first_person_some : forall ps id p, In p ps -> p_id p = id -> exists p', first_person ps id = Ok p'.
Proof.
  induction ps as [|a ps IH]; simpl; intros id p H E; [contradiction|]. destruct (Z.eqb_spec (p_id a) id); [eauto|].
  destruct H as [-> | H]; [contradiction|]. eauto.
Qed.

Lemma persons_ok : exists people, persons_of t = Ok people /\ length people = length (t_records t) /\
  forall i r p, at_ (t_records t) i r -> written_by t r p -> at_ people i p.
Proof.
  unfold persons_of. destruct (mapM_total _ _ (fun r => first_person (t_persons t) (r_pers r)) (t_records t)) as [out E].
  { intros r Hr. destruct W as (_ & _ & H & _). destruct (H r Hr) as [_ (p & Hp & Ep)]. eapply first_person_some; eauto. }
  exists out. destruct (mapM_ok _ _ _ _ _ E) as [L X]. repeat split; auto. intros i r p Hi Hp. destruct (X _ _ Hi) as (p' & Hp' & E').
  apply first_person_ok in E'. assert (p = p') by (eapply person_unique; eauto; exact E'). subst. exact Hp'.
Qed.

Lemma fold_max_spec : forall l x, (forall y, In y (x :: l) -> y <= fold_left Z.max l x) /\ In (fold_left Z.max l x) (x :: l).
Proof.
  induction l as [|a l IH]; intro x; simpl.
  - split; [intros y [-> | []]; lia | auto].
  - destruct (IH (Z.max x a)) as [H1 H2]. simpl in H1, H2. split.
    + intros y [-> | [-> | H]]; [specialize (H1 (Z.max y a) (or_introl eq_refl))|specialize (H1 (Z.max x y) (or_introl eq_refl))|]; try lia. auto.
    + destruct H2 as [H2 | H2]; [|auto]. rewrite <- H2. destruct (Z.max_spec x a) as [[_ ->] | [_ ->]]; auto.
Qed.

Lemma recorded_ok : exists recorded, mapM (recorded_persons t) (t_households t) = Ok recorded /\
  length recorded = length (t_households t) /\
  forall k h n, at_ (t_households t) k h -> at_ recorded k n -> (h_size h = n <-> fully_recorded t h).
Proof.
  destruct (mapM_total _ _ (recorded_persons t) (t_households t)) as [out E].
  { intros h Hh. destruct W as (_ & _ & _ & H). destruct (H h Hh) as [(r & Hr & Er) _]. unfold recorded_persons.
    assert (X : In (r_number r) (map r_number (filter (fun r => r_hh r =? h_id h) (t_records t)))).
    { apply in_map, filter_In. split; [exact Hr|lia]. }
    destruct (map r_number _) as [|x l]; [destruct X|eauto]. }
  exists out. destruct (mapM_ok _ _ _ _ _ E) as [L X]. split; [exact E|]. split; [exact L|]. intros k h n H H0.
  destruct (X _ _ H) as (n' & Hn & En). pose proof (at_fun _ _ _ _ _ H0 Hn) as Enn. subst n'. unfold recorded_persons in En.
  destruct (map r_number _) as [|x l] eqn:Em; [discriminate|]. injection En as En. destruct (fold_max_spec l x) as [Y1 Y2]. rewrite <- Em, En in Y1, Y2.
  apply in_map_iff in Y2 as (r & Er & Hr). apply filter_In in Hr as [Hr Ei].
  assert (Y3 : forall r, In r (t_records t) -> r_hh r = h_id h -> r_number r <= n).
  { intros r' Hr' Er'. apply Y1. apply in_map, filter_In. split; [auto|lia]. }
  clear - Er Hr Ei Y3. split.
  - intro Es. rewrite <- Es in *. split; [exists r; repeat split; auto; lia|exact Y3].
  - intros [(r' & Hr' & Er' & Es) Hle]. specialize (Hle r Hr). specialize (Y3 r' Hr' Er'). lia.
Qed.

Variable people : list person.
Hypothesis Lp : length people = length (t_records t).
Hypothesis Hpeople : forall i r p, at_ (t_records t) i r -> written_by t r p -> at_ people i p.
Variable recorded : list Z.
Hypothesis Lr : length recorded = length (t_households t).
Hypothesis Hrec : forall k h n, at_ (t_households t) k h -> at_ recorded k n -> (h_size h = n <-> fully_recorded t h).

Lemma marks_people : forall f P, (forall r h p, In r (t_records t) -> lives_in t r h -> written_by t r p -> (f p = true <-> P r h p)) ->
  marks t (map f people) P.
Proof.
  intros f P H. split; [rewrite map_length; exact Lp|]. intros i r h p Hi Hh Hp. rewrite <- (H r h p (at_in _ _ _ _ Hi) Hh Hp), at_map.
  pose proof (Hpeople _ _ _ Hi Hp) as Hq. split.
  - intros (x & Hx & E). rewrite (at_fun _ _ _ _ _ Hq Hx). auto.
  - intro E. exists p. auto.
Qed.

Lemma marks_households : forall f P, (forall r h p, In r (t_records t) -> lives_in t r h -> written_by t r p -> (f r h = true <-> P r h p)) ->
  exists l, mapM (fun r => bind (household_of t r) (fun h => Ok (f r h))) (t_records t) = Ok l /\ marks t l P.
Proof.
  intros f P H. destruct (mapM_total _ _ (fun r => bind (household_of t r) (fun h => Ok (f r h))) (t_records t)) as [l E].
  { intros r Hr. destruct W as (_ & _ & Hw & _). destruct (Hw r Hr) as [(h & Hh) _]. rewrite (household_of_ok r h Hh). cbn [bind]. eauto. }
  exists l. split; [exact E|]. destruct (mapM_ok _ _ _ _ _ E) as [L X]. split; [exact L|]. intros i r h p Hi Hh Hp.
  rewrite <- (H r h p (at_in _ _ _ _ Hi) Hh Hp). destruct (X _ _ Hi) as (y & Hy & Ey). rewrite (household_of_ok r h Hh) in Ey. cbn [bind] in Ey. injection Ey as Ey.
  split; [intro Z; rewrite Ey; symmetry; eapply at_fun; [exact Z|exact Hy] | intros Z; unfold at_; rewrite Hy; congruence].
Qed.

(** ** Steps *)

Definition step (good : Prop) (E : py_error -> Prop) (f : list bool -> result (list bool)) (Q : record -> household -> person -> Prop) : Prop :=
  forall m P, marks t m P -> (good /\ exists m', f m = Ok m' /\ marks t m' (both P Q)) \/ (~ good /\ exists e, f m = Err e /\ E e).

Lemma step_bind : forall g1 E1 f1 Q1 g2 E2 f2 Q2, step g1 E1 f1 Q1 -> step g2 E2 f2 Q2 ->
  step (g1 /\ g2) (fun e => E1 e \/ E2 e) (fun m => bind (f1 m) f2) (both Q1 Q2).
Proof.
  intros g1 E1 f1 Q1 g2 E2 f2 Q2 H1 H2 m P Hm. destruct (H1 m P Hm) as [(G & m1 & -> & Hm1) | (G & e & -> & He)]; cbn [bind]; [|right; split; [tauto|eauto]].
  destruct (H2 m1 _ Hm1) as [(G2 & m2 & -> & Hm2) | (G2 & e & -> & He)]; [left|right; split; [tauto|eauto]].
  split; [auto|]. exists m2. split; [auto|]. eapply marks_iff; [|exact Hm2]. intros. unfold both. tauto.
Qed.

Lemma step_keep : forall f Q, (forall r h p, In r (t_records t) -> lives_in t r h -> written_by t r p -> (f r = true <-> Q r h p)) ->
  step True (fun _ => False) (keep t f) Q.
Proof. intros f Q H m P Hm. left. split; [auto|]. eexists. split; [reflexivity|]. apply marks_conj; [exact Hm|]. apply marks_map, H. Qed.

Lemma step_people : forall f Q, (forall r h p, In r (t_records t) -> lives_in t r h -> written_by t r p -> (f p = true <-> Q r h p)) ->
  step True (fun _ => False) (keep_person people f) Q.
Proof. intros f Q H m P Hm. left. split; [auto|]. eexists. split; [reflexivity|]. apply marks_conj; [exact Hm|]. apply marks_people, H. Qed.

Lemma step_household : forall f Q, (forall r h p, In r (t_records t) -> lives_in t r h -> written_by t r p -> (f r h = true <-> Q r h p)) ->
  step True (fun _ => False) (keep_household t f) Q.
Proof.
  intros f Q H m P Hm. left. split; [auto|]. destruct (marks_households f Q H) as (l & E & Hl). unfold keep_household. rewrite E. cbn [bind].
  eexists. split; [reflexivity|]. apply marks_conj; auto.
Qed.

Lemma step_none : forall Q : record -> household -> person -> Prop, (forall r h p, Q r h p) -> step True (fun _ => False) (fun m => Ok m) Q.
Proof. intros Q H m P Hm. left. split; [auto|]. eexists. split; [reflexivity|]. eapply marks_iff; [|exact Hm]. intros. unfold both. intuition auto. Qed.

Lemma step_if : forall (b : bool) f Q, step True (fun _ => False) f Q ->
  step True (fun _ => False) (fun m => if b then f m else Ok m) (fun r h p => b = true -> Q r h p).
Proof.
  intros [|] f Q H m P Hm.
  - destruct (H m P Hm) as [(_ & m' & E & Hm') | (G & _)]; [|tauto]. left. split; [auto|]. exists m'. split; [auto|].
    eapply marks_iff; [|exact Hm']. intros. unfold both. intuition auto.
  - left. split; [auto|]. eexists. split; [reflexivity|]. eapply marks_iff; [|exact Hm]. intros. unfold both. intuition (auto; discriminate).
Qed.

Definition ok_code (x : option Z) (most : Z) : Prop := match x with None => True | Some z => 0 <= z <= most end.

Lemma step_checked : forall x most f (v : record -> household -> person -> Z), 0 < most ->
  (forall z, step True (fun _ => False) (f z) (fun r h p => v r h p = z)) ->
  step (ok_code x most) (fun e => e = AssertionError /\ bad_code x most) (checked x most f) (fun r h p => wants x (v r h p)).
Proof.
  intros x most f v Hmost H m P Hm. destruct x as [z|]; cbn [checked wants ok_code].
  2: { left. split; [auto|]. eexists. split; [reflexivity|]. eapply marks_iff; [|exact Hm]. intros. unfold both. tauto. }
  destruct (Z.eqb_spec z 0) as [->|N].
  - left. split; [lia|]. eexists. split; [reflexivity|]. eapply marks_iff; [|exact Hm]. intros. unfold both. intuition auto.
  - destruct ((z <=? most) && (0 <? z)) eqn:Ez.
    + left. split; [lia|]. destruct (H z m P Hm) as [(_ & m' & E & Hm') | (G & _)]; [|tauto]. exists m'. split; [auto|].
      eapply marks_iff; [|exact Hm']. intros. unfold both. intuition auto.
    + right. split; [lia|]. eexists. split; [reflexivity|]. split; [reflexivity|]. exists z. split; [reflexivity|]. lia.
Qed.

Definition ok_choice (c : choice) (most : Z) : Prop :=
  match c with CNone => True | CInt z => 0 <= z <= most | CList l => forall z, In z l -> 0 <= z <= most | CDict => False end.

Definition picks (c : choice) (R : Z -> record -> household -> person -> Prop) (v : record -> household -> person -> Z) r h p : Prop :=
  match c with
  | CNone => True
  | CInt z => z = 0 \/ v r h p = z
  | CList l => l = [] \/ exists z, In z l /\ R z r h p
  | CDict => False
  end.

Definition answers (ask : Z -> result (list bool)) (most : Z) (R : Z -> record -> household -> person -> Prop) : Prop :=
  forall z, (0 <= z <= most /\ exists m, ask z = Ok m /\ marks t m (R z)) \/ (~ (0 <= z <= most) /\ ask z = Err AssertionError).

Lemma mapM_answers : forall ask most R l, answers ask most R ->
  (exists ms, mapM ask l = Ok ms /\ (forall z, In z l -> 0 <= z <= most) /\ Forall2 (fun z m => marks t m (R z)) l ms) \/
  (mapM ask l = Err AssertionError /\ exists z, In z l /\ ~ (0 <= z <= most)).
Proof.
  intros ask most R l H. induction l as [|z l IH]; simpl.
  - left. exists []. split; [auto|]. split; [contradiction|constructor].
  - destruct (H z) as [(G & m & -> & Hm) | (G & ->)]; cbn [bind]; [|right; split; [auto|exists z; auto]].
    destruct IH as [(ms & -> & Hz & Hms) | (-> & z' & Hz' & G')]; cbn [bind].
    + left. exists (m :: ms). split; [auto|]. split; [intros z' [<- | Hz']; auto|constructor; auto].
    + right. split; [auto|]. exists z'. auto.
Qed.

Lemma marks_or : forall m l P Q, marks t m P -> marks t l Q -> marks t (map2 orb m l) (fun r h p => P r h p \/ Q r h p).
Proof.
  intros m l P Q [Lm Hm] [Ll Hl]. split; [rewrite map2_length_eq; congruence|].
  intros i r h p Hi Hh Hp. rewrite at_map2, <- (Hm i r h p Hi Hh Hp), <- (Hl i r h p Hi Hh Hp).
  pose proof (at_lt _ _ _ _ Hi) as Hlt. rewrite <- Lm in Hlt. destruct (lt_at _ _ _ Hlt) as [x Hx]. rewrite Lm, <- Ll in Hlt. destruct (lt_at _ _ _ Hlt) as [y Hy]. split.
  - intros (x' & y' & Hx' & Hy' & E). symmetry in E. apply orb_prop in E as [-> | ->]; auto.
  - intros [H | H]; [exists true, y|exists x, true]; repeat split; auto. symmetry. apply orb_true_r.
Qed.

Lemma marks_union : forall R l ms acc P, marks t acc P -> Forall2 (fun z m => marks t m (R z)) l ms ->
  marks t (fold_left (map2 orb) ms acc) (fun r h p => P r h p \/ exists z : Z, In z l /\ R z r h p).
Proof.
  intros R l ms acc P Ha H. revert acc P Ha. induction H as [|z m l ms Hz H IH]; intros acc P Ha; simpl.
  - eapply marks_iff; [|exact Ha]. intros. split; [auto|]. intros [X | (z & [] & _)]; auto.
  - eapply marks_iff; [|apply IH; apply marks_or; [exact Ha|exact Hz]]. intros r h p _ _ _. split.
    + intros [[X | X] | (z' & I & X)]; eauto.
    + intros [X | (z' & [<- | I] & X)]; eauto.
Qed.

Lemma marks_false : marks t (repeat false (length (t_records t))) (fun _ _ _ => False).
Proof.
  split; [apply repeat_length|]. intros i r h p Hi _ _. apply at_lt in Hi. unfold at_. rewrite nth_error_repeat; auto. split; [discriminate|contradiction].
Qed.

Lemma step_chosen : forall ask dict c most f R (v : record -> household -> person -> Z), 0 < most ->
  (forall z, step True (fun _ => False) (f z) (fun r h p => v r h p = z)) ->
  ((exists l, l <> [] /\ c = CList l) -> answers ask most R) ->
  step (ok_choice c most) (fun e => e = AssertionError /\ bad_choice c most \/ e = dict /\ c = CDict) (chosen t ask dict c most f) (picks c R v).
Proof.
  intros ask dict c most f R v Hmost H Ha m P Hm. destruct c as [|z|l|].
  - left. split; [exact I|]. exists m. split; [reflexivity|]. eapply marks_iff; [|exact Hm]. intros. unfold both, picks. tauto.
  - destruct (step_checked (Some z) most f v Hmost H m P Hm) as [(G & m' & E & Hm') | (G & e & E & -> & z' & Ez & Hz)].
    + left. split; [exact G|]. exists m'. auto.
    + right. split; [exact G|]. exists AssertionError. split; [exact E|]. left. split; [auto|]. left. exists z'. split; [congruence|auto].
  - destruct l as [|z0 l0].
    { left. split; [intros z []|]. exists m. split; [reflexivity|]. eapply marks_iff; [|exact Hm]. intros. unfold both, picks. intuition auto. }
    assert (Hn : z0 :: l0 <> []) by discriminate. specialize (Ha (ex_intro _ _ (conj Hn eq_refl))). set (l := z0 :: l0) in *.
    assert (El : chosen t ask dict (CList l) most f m = bind (mapM ask l) (fun ms => Ok (conj_mask m (union (length (t_records t)) ms)))) by reflexivity.
    rewrite El. destruct (mapM_answers ask most R l Ha) as [(ms & -> & Hz & Hms) | (-> & z & Hz & G)]; cbn [bind].
    + left. split; [exact Hz|]. eexists. split; [reflexivity|]. apply marks_conj; [exact Hm|]. unfold union.
      eapply marks_iff; [|apply marks_union; [apply marks_false|exact Hms]]. intros. unfold picks. intuition auto. 
    + right. split; [intro X; apply G, X, Hz|]. eexists. split; [reflexivity|]. left. split; [auto|]. right. exists l, z. auto.
  - right. split; [auto|]. eexists. split; [reflexivity|]. auto.
Qed.

(** ** The first three filters *)

Lemma compress_in : forall A (f : A -> bool) (g : A -> Z) l z, In z (compress (map f l) (map g l)) <-> exists x, In x l /\ f x = true /\ g x = z.
Proof.
  intros A f g l z. induction l as [|a l IH]; simpl.
  - split; [contradiction|]. intros (x & [] & _).
  - destruct (f a) eqn:E; simpl; rewrite IH; split.
    + intros [<- | (x & H)]; [exists a; auto|exists x; tauto].
    + intros (x & [<- | Hx] & E1 & E2); [auto|right; exists x; auto].
    + intros (x & H); exists x; tauto.
    + intros (x & [<- | Hx] & E1 & E2); [congruence|exists x; auto].
Qed.

Lemma compress_map2_in : forall A B (f : A -> B -> bool) (g : A -> Z) l m z, length m = length l ->
  (In z (compress (map2 f l m) (map g l)) <-> exists k x y, at_ l k x /\ at_ m k y /\ f x y = true /\ g x = z).
Proof.
  intros A B f g l. induction l as [|a l IH]; intros [|b m] z L; simpl in *; try discriminate.
  - split; [contradiction|]. intros ([|k] & x & y & H & _); discriminate.
  - injection L as L. destruct (f a b) eqn:E; simpl; rewrite (IH m z L); split.
    + intros [<- | (k & x & y & H)]; [exists 0%nat, a, b; repeat split; auto|exists (S k), x, y; exact H].
    + intros ([|k] & x & y & H1 & H2 & H3 & H4); [injection H1 as ->; auto|right; exists k, x, y; auto].
    + intros (k & x & y & H); exists (S k), x, y; exact H.
    + intros ([|k] & x & y & H1 & H2 & H3 & H4); [injection H1 as ->; injection H2 as ->; congruence|exists k, x, y; auto].
Qed.

Lemma existsb_eqb : forall z l, existsb (Z.eqb z) l = true <-> In z l.
Proof. intros z l. rewrite existsb_exists. split; [intros (x & H & E); apply Z.eqb_eq in E; subst; auto|intro H; exists z; split; [auto|lia]]. Qed.

Lemma step_full : step True (fun _ => False) (keep_full t recorded) (fun r h p => fully_recorded t h).
Proof.
  unfold keep_full. apply step_keep. intros r h p Hr Hh Hp. rewrite existsb_eqb, compress_map2_in by exact Lr. split.
  - intros (k & h' & n & Hk & Hn & E & Ei). assert (h = h') by (eapply household_unique; [exact Hh|split; [eapply at_in; exact Hk|exact Ei]]). subst h'.
    apply (Hrec k h n Hk Hn). lia.
  - intro F. pose proof Hh as [Hin Ei]. apply in_at in Hin as [k Hk]. pose proof (at_lt _ _ _ _ Hk) as Hlt. rewrite <- Lr in Hlt.
    destruct (lt_at _ _ _ Hlt) as [n Hn]. exists k, h, n. repeat split; auto. apply (Hrec k h n Hk Hn) in F. lia.
Qed.

Definition flagged : list record := filter (fun r => negb (r_missing r =? 0)) (t_records t).

(** Some flagged diary at an even place reports the day of [r]. *)
Definition day_listed (r : record) : Prop := exists f, In f (every_second flagged) /\ r_hh f = r_hh r /\ r_missing f = r_day r.

Lemma every_second_map : forall A B (f : A -> B) l, every_second (map f l) = map f (every_second l).
Proof.
  intros A B f. fix IH 1. intros [|x [|y l]]; simpl; [reflexivity|reflexivity|]. f_equal. apply IH.
Qed.

Lemma every_second_in : forall A (l : list A) x, In x (every_second l) -> In x l.
Proof.
  intros A. fix IH 1. intros [|x [|y l]] z; simpl; auto. intros [H | H]; auto.
Qed.

Lemma step_days : step True (fun _ => False) (keep_days t) (fun r h p => ~ day_listed r).
Proof.
  unfold keep_days. apply step_keep. intros r h p _ _ _. fold flagged. rewrite !every_second_map. unfold day_listed.
  generalize (every_second flagged). intro l. rewrite negb_true_iff, <- not_true_iff_false. apply not_iff_compat. induction l as [|f l IH]; simpl.
  - split; [discriminate|]. intros (x & [] & _).
  - rewrite orb_true_iff, IH. split.
    + intros [H | (x & H)]; [exists f; split; [auto|lia]|exists x; tauto].
    + intros (x & [<- | H] & E1 & E2); [left; lia|right; exists x; auto].
Qed.

Lemma step_same : step True (fun _ => False) (keep_same t) (fun r h p => r_same r = 1 \/ h_size h = 1).
Proof. unfold keep_same. apply step_household. intros r h p _ _ _. lia. Qed.

(** ** Work types *)

Definition couple_retired (h : household) : Prop := h_size h = 2 /\ (forall p, In p (t_persons t) -> p_hh p = h_id h -> p_life p = 8).

Lemma two_retired_ok : couples_listed t -> exists ids, two_retired t = Ok ids /\
  forall z, In z ids <-> exists h, In h (t_households t) /\ h_id h = z /\ couple_retired h.
Proof.
  intro C. unfold two_retired. set (f := fun h : household => _).
  assert (Hf : forall h, In h (t_households t) -> h_size h = 2 -> exists b, f h = Ok (h_id h, b) /\ (b = true <-> couple_retired h)).
  { intros h Hh Hs. specialize (C h Hh Hs). unfold f.
    assert (X : forall p, In p (filter (fun p => p_hh p =? h_id h) (t_persons t)) <-> In p (t_persons t) /\ p_hh p = h_id h).
    { intro p. rewrite filter_In, Z.eqb_eq. reflexivity. }
    unfold couple_retired. destruct (filter _ (t_persons t)) as [|a [|b [|c l]]]; try discriminate. cbn.
    assert (Y : (forall p, In p (t_persons t) -> p_hh p = h_id h -> p_life p = 8) <-> p_life a = 8 /\ p_life b = 8).
    { split.
      - intro H. split; apply H; apply X; simpl; auto.
      - intros [H1 H2] p Hp Ep. destruct (proj2 (X p) (conj Hp Ep)) as [-> | [-> | []]]; auto. }
    destruct (Z.eqb_spec (p_life a) 8); cbn; eexists; (split; [reflexivity|]); rewrite Y; lia. }
  destruct (mapM_total _ _ f (filter (fun h => h_size h =? 2) (t_households t))) as [out E].
  { intros h Hh. apply filter_In in Hh as [Hh Es]. destruct (Hf h Hh) as (b & Eb & _); [lia|eauto]. }
  rewrite E. cbn [bind]. eexists. split; [reflexivity|]. intro z. destruct (mapM_ok _ _ _ _ _ E) as [L X]. rewrite in_map_iff. split.
  - intros ([z' b] & Ez & Hin). apply filter_In in Hin as [Hin Eb]. simpl in Ez, Eb. subst z' b. apply in_at in Hin as [k Hk].
    pose proof (at_lt _ _ _ _ Hk) as Hlt. rewrite L in Hlt. destruct (lt_at _ _ _ Hlt) as [h Hh]. destruct (X _ _ Hh) as (y & Hy & Ey).
    pose proof (at_in _ _ _ _ Hh) as Hin. apply filter_In in Hin as [Hin Es]. destruct (Hf h Hin) as (b & Eb & Hb); [lia|].
    pose proof (at_fun _ _ _ _ _ Hk Hy) as Eyy. subst y. rewrite Eb in Ey. injection Ey as Ei Et. exists h. split; [exact Hin|]. split; [congruence|]. apply Hb. congruence.
  - intros (h & Hin & Ei & Hc). pose proof Hc as [Hs _]. destruct (Hf h Hin Hs) as (b & Eb & Hb).
    assert (Hin' : In h (filter (fun h => h_size h =? 2) (t_households t))) by (apply filter_In; split; [auto|lia]).
    apply in_at in Hin' as [k Hk]. destruct (X _ _ Hk) as (y & Hy & Ey). rewrite Eb in Ey. injection Ey as <-.
    exists (h_id h, b). split; [exact Ei|]. apply filter_In. split; [eapply at_in; exact Hy|]. simpl. apply Hb, Hc.
Qed.

Definition ok_work (w : option string) : Prop := match w with None => True | Some w => known_work w end.

(** The answer about the single retired person, given by a further call. *)
Definition picks_work (w : option string) (R : record -> household -> person -> Prop) (r : record) (h : household) (p : person) : Prop :=
  match w with
  | None => True
  | Some w => w = ""%string \/ In (w, h_work h) work_codes \/ w = "1_retired"%string /\ R r h p \/ w = "2_retired"%string /\ couple_retired h
  end.

Lemma step_work : forall ask w R,
  (w = Some "1_retired"%string -> exists m, ask ask_retired = Ok m /\ marks t m R) ->
  (w = Some "2_retired"%string -> couples_listed t) ->
  step (ok_work w) (fun e => e = ValueError /\ exists x, w = Some x /\ ~ known_work x) (keep_work t ask w) (picks_work w R).
Proof.
  intros ask [w|] R H1 H2.
  2: { intros m P Hm. left. split; [exact I|]. exists m. split; [reflexivity|]. eapply marks_iff; [|exact Hm]. intros. unfold both, picks_work. tauto. }
  assert (Hcode : forall c, In (w, c) work_codes -> step (ok_work (Some w)) (fun e => e = ValueError /\ exists x, Some w = Some x /\ ~ known_work x)
     (keep_household t (fun _ h => h_work h =? c)) (picks_work (Some w) R)).
  { intros c Hc m P Hm. left. split; [right; left; apply in_map_iff; exists (w, c); auto|].
    destruct (step_household (fun _ h => h_work h =? c) (fun r h p => h_work h = c)) with (m := m) (P := P) as [(_ & m' & E & Hm') | (G & _)]; [intros; lia|exact Hm| |tauto].
    exists m'. split; [exact E|]. eapply marks_iff; [|exact Hm']. intros r h p _ _ _. unfold both, picks_work.
    assert (X : In (w, h_work h) work_codes <-> h_work h = c).
    { split; [|intros ->; exact Hc]. intro Hw. simpl in Hc, Hw. decompose [or] Hc; decompose [or] Hw; try contradiction; congruence. }
    rewrite X. assert (N : w <> ""%string /\ w <> "1_retired"%string /\ w <> "2_retired"%string).
    { clear - Hc. simpl in Hc. decompose [or] Hc; try contradiction; (match goal with H : (_, _) = _ |- _ => injection H as <- <- end); repeat split; discriminate. }
    clear - N. tauto. }
  unfold keep_work. intros m P Hm.
  destruct (String.eqb_spec w ""%string) as [->|N0].
  { left. split; [left; reflexivity|]. exists m. split; [reflexivity|]. eapply marks_iff; [|exact Hm]. intros. unfold both, picks_work. tauto. }
  destruct (String.eqb_spec w "1_fulltime") as [->|N1]; [apply (Hcode 2); [simpl; tauto|exact Hm]|].
  destruct (String.eqb_spec w "1_halftime") as [->|N2]; [apply (Hcode 3); [simpl; tauto|exact Hm]|].
  destruct (String.eqb_spec w "2_fulltime") as [->|N3]; [apply (Hcode 4); [simpl; tauto|exact Hm]|].
  destruct (String.eqb_spec w "1_fulltime_1_halftime") as [->|N4]; [apply (Hcode 5); [simpl; tauto|exact Hm]|].
  destruct (String.eqb_spec w "3_fulltime") as [->|N5]; [apply (Hcode 6); [simpl; tauto|exact Hm]|].
  destruct (String.eqb_spec w "other") as [->|N6]; [apply (Hcode 7); [simpl; tauto|exact Hm]|].
  clear Hcode.
  assert (Nw : forall c, ~ In (w, c) work_codes).
  { intros c Hc. simpl in Hc. decompose [or] Hc; try contradiction; congruence. }
  destruct (String.eqb_spec w "1_retired") as [->|N7].
  { destruct (H1 eq_refl) as (l & E & Hl). rewrite E. cbn [bind]. left. split; [right; right; left; reflexivity|]. eexists. split; [reflexivity|].
    apply marks_conj; [exact Hm|]. eapply marks_iff; [|exact Hl]. intros r h p _ _ _. unfold picks_work. specialize (Nw (h_work h)). split; [auto|].
    intros [E0 | [X | [[_ X] | [E0 _]]]]; [discriminate|contradiction|exact X|discriminate]. }
  destruct (String.eqb_spec w "2_retired") as [->|N8].
  { destruct (two_retired_ok (H2 eq_refl)) as (ids & E & Hids). rewrite E. cbn [bind]. left. split; [right; right; right; reflexivity|]. eexists. split; [reflexivity|].
    apply marks_conj; [exact Hm|]. apply marks_map. intros r h p Hr Hh Hp. rewrite existsb_eqb, Hids. unfold picks_work. specialize (Nw (h_work h)). split.
    - intros (h' & Hin & Ei & Hc). assert (h = h') by (eapply household_unique; [exact Hh|split; auto]). subst h'. auto.
    - intros [E0 | [X | [[E0 _] | [_ X]]]]; [discriminate|contradiction|discriminate|]. exists h. destruct Hh. auto. }
  assert (K : ~ known_work w).
  { intros [K | [K | [K | K]]]; try contradiction. apply in_map_iff in K as ([w' c] & Ew & K). simpl in Ew. subst w'. exact (Nw c K). }
  right. split; [exact K|]. exists ValueError. split; [reflexivity|]. eauto.
Qed.

(** ** Intervals *)

Definition ok_range (g : range) : Prop := match g with RNone => True | RNumber z => (z == 0)%Q | RPair a b => (a <= b)%Q end.

Lemma step_range : forall g f (Q : Q -> Q -> record -> household -> person -> Prop),
  (forall a b, step True (fun _ => False) (f a b) (Q a b)) ->
  step (ok_range g) (fun e => e = AssertionError /\ bad_range g) (keep_range g f) (fun r h p => match g with RPair a b => Q a b r h p | _ => True end).
Proof.
  intros g f Q H m P Hm. destruct g as [|z|a b]; cbn [keep_range ok_range].
  - left. split; [auto|]. exists m. split; [reflexivity|]. eapply marks_iff; [|exact Hm]. intros. unfold both. tauto.
  - destruct (Qeq_bool z 0) eqn:E.
    + apply Qeq_bool_iff in E. left. split; [auto|]. exists m. split; [reflexivity|]. eapply marks_iff; [|exact Hm]. intros. unfold both. tauto.
    + apply Qeq_bool_neq in E. right. split; [auto|]. eexists. split; [reflexivity|]. split; [auto|]. left. eauto.
  - destruct (Qle_bool a b) eqn:E.
    + apply Qle_bool_iff in E. left. split; [auto|]. destruct (H a b m P Hm) as [(_ & X) | (G & _)]; [exact X|tauto].
    + assert (b < a)%Q. { apply Qnot_le_lt. intro X. apply Qle_bool_iff in X. congruence. }
      right. split; [apply Qlt_not_le; auto|]. eexists. split; [reflexivity|]. split; [auto|]. right. eauto.
Qed.

Lemma within_spec : forall x a b, within (Some x) a b = true <-> (a <= x)%Q /\ (x < b)%Q.
Proof.
  intros x a b. unfold within. rewrite andb_true_iff, negb_true_iff, Qle_bool_iff, <- not_true_iff_false, Qle_bool_iff. split; intros [H1 H2]; split; auto.
  - apply Qnot_le_lt; auto.
  - apply Qlt_not_le; auto.
Qed.

Lemma mean_age_ok : forall h, In h (t_households t) -> exists x, mean_age t h = Some x /\ forall y, members_age t h y <-> (y == x)%Q.
Proof.
  intros h Hh. unfold mean_age, members_age. destruct W as (_ & _ & _ & H). destruct (H h Hh) as [_ (p & Hp & Ep)].
  assert (X : In (p_age p) (map p_age (filter (fun p => p_hh p =? h_id h) (t_persons t)))).
  { apply in_map, filter_In. split; [exact Hp|lia]. }
  destruct (map p_age _) as [|a l]; [destruct X|]. eexists. split; [reflexivity|]. intro y.
  change (fold_right Z.add 0 (a :: l)) with (total_Z (a :: l)).
  assert (N : ~ (inject_Z (Z.of_nat (length (a :: l))) == 0)%Q).
  { unfold Qeq. cbn [Qnum Qden inject_Z]. simpl length. lia. }
  generalize dependent (inject_Z (Z.of_nat (length (a :: l)))). intros n N. split.
  - intro E. rewrite <- E. field. exact N.
  - intros ->. field. exact N.
Qed.

Lemma mean_age_of_ok : forall r h, lives_in t r h -> mean_age_of (map (mean_age t) (t_households t)) r = Ok (mean_age t h).
Proof.
  intros r h [H E]. destruct W as (Hid & _). apply in_at in H as [i Hi]. pose proof (Hid _ _ Hi). unfold mean_age_of.
  assert (Er : r_hh r - 1 = Z.of_nat i) by lia. rewrite Er.
  assert (X : (Z.of_nat i <? 0) = false) by lia. rewrite X, X, Nat2Z.id. apply vget_ok, at_map. eauto.
Qed.

Lemma step_mean_age : forall a b, step True (fun _ => False) (keep_mean_age t a b) (fun r h p => forall x, members_age t h x -> (a <= x)%Q /\ (x < b)%Q).
Proof.
  intros a b m P Hm. left. split; [auto|]. unfold keep_mean_age. set (ages := map (mean_age t) (t_households t)).
  destruct (mapM_total _ _ (fun r => bind (mean_age_of ages r) (fun x => Ok (within x a b))) (t_records t)) as [l E].
  { intros r Hr. destruct W as (_ & _ & Hw & _). destruct (Hw r Hr) as [(h & Hh) _]. unfold ages. rewrite (mean_age_of_ok r h Hh). cbn [bind]. eauto. }
  rewrite E. cbn [bind]. eexists. split; [reflexivity|]. apply marks_conj; [exact Hm|]. destruct (mapM_ok _ _ _ _ _ E) as [L X]. split; [exact L|].
  intros i r h p Hi Hh Hp. destruct (X _ _ Hi) as (y & Hy & Ey). unfold ages in Ey. rewrite (mean_age_of_ok r h Hh) in Ey. cbn [bind] in Ey. injection Ey as Ey.
  destruct (mean_age_ok h (proj1 Hh)) as (x & Ex & Hx). rewrite Ex in Ey.
  assert (Z : at_ l i true <-> within (Some x) a b = true).
  { split; [intro Z; rewrite Ey; symmetry; eapply at_fun; [exact Z|exact Hy] | intros Z; unfold at_; rewrite Hy; congruence]. }
  rewrite Z, within_spec. split.
  - intros F y' Hy'. apply Hx in Hy'. rewrite Hy'. exact F.
  - intro F. apply F. apply Hx. reflexivity.
Qed.

(** ** The whole question *)

Definition base (q : query) (r : record) (h : household) : Prop :=
  (q_full q = true -> fully_recorded t h) /\ (q_remove q = true -> ~ day_listed r) /\ (q_same q = true -> r_same r = 1 \/ h_size h = 1).
Definition all_base (r : record) (h : household) : Prop := fully_recorded t h /\ ~ day_listed r /\ (r_same r = 1 \/ h_size h = 1).

Definition raw (q : query) : record -> household -> person -> Prop :=
  both (fun r h p => q_full q = true -> fully_recorded t h) (
  both (fun r h p => q_remove q = true -> ~ day_listed r) (
  both (fun r h p => q_same q = true -> r_same r = 1 \/ h_size h = 1) (
  both (fun r h p => wants (q_quarter q) (r_quarter r)) (
  both (picks (q_weekday q) (fun z r h p => all_base r h /\ (z = 0 \/ r_weekday r = z)) (fun r h p => r_weekday r)) (
  both (picks (q_residents q) (fun z r h p => all_base r h /\ (z = 0 \/ h_size h = z)) (fun r h p => h_size h)) (
  both (picks_work (q_work q) (fun r h p => all_base r h /\ h_size h = 1 /\ p_life p = 8)) (
  both (fun r h p => wants (q_type q) (h_type h)) (
  both (picks (q_life q) (fun z r h p => all_base r h /\ (z = 0 \/ p_life p = z)) (fun r h p => p_life p)) (
  both (fun r h p => wants (q_salary q) (p_salary p)) (
  both (fun r h p => wants (q_revenue q) (h_revenue h)) (
  both (fun r h p => wants (q_position q) (p_position p)) (
  both (fun r h p => match q_age q with RPair a b => (a <= inject_Z (p_age p))%Q /\ (inject_Z (p_age p) < b)%Q | _ => True end) (
  both (fun r h p => match q_mean_age q with RPair a b => forall x, members_age t h x -> (a <= x)%Q /\ (x < b)%Q | _ => True end) (
  both (fun r h p => wants (q_country q) (p_country p)) (
        fun r h p => wants (q_gender q) (p_gender p)))))))))))))))).

Definition good (q : query) : Prop :=
  True /\ True /\ True /\ ok_code (q_quarter q) 4 /\ ok_choice (q_weekday q) 7 /\ ok_choice (q_residents q) 6 /\ ok_work (q_work q) /\
  ok_code (q_type q) 5 /\ ok_choice (q_life q) 11 /\ ok_code (q_salary q) 5 /\ ok_code (q_revenue q) 5 /\ ok_code (q_position q) 9 /\
  ok_range (q_age q) /\ ok_range (q_mean_age q) /\ ok_code (q_country q) 2 /\ ok_code (q_gender q) 2.

Definition asks (ask : query -> result (list bool)) : Prop :=
  answers (fun z => ask (ask_weekday z)) 7 (fun z r h p => all_base r h /\ (z = 0 \/ r_weekday r = z)) /\
  answers (fun z => ask (ask_residents z)) 6 (fun z r h p => all_base r h /\ (z = 0 \/ h_size h = z)) /\
  answers (fun z => ask (ask_life z)) 11 (fun z r h p => all_base r h /\ (z = 0 \/ p_life p = z)) /\
  (exists m, ask ask_retired = Ok m /\ marks t m (fun r h p => all_base r h /\ h_size h = 1 /\ p_life p = 8)).

Lemma select_raw : forall ask q, (calls_itself q -> asks ask) -> (q_work q = Some "2_retired"%string -> couples_listed t) ->
  (good q /\ exists m, select t people recorded ask q = Ok m /\ marks t m (raw q)) \/
  (~ good q /\ exists e, select t people recorded ask q = Err e /\ problem q e).
Proof.
  intros ask q Ha Hc.
  assert (S : exists E : py_error -> Prop, (forall e, E e -> problem q e) /\
    step (good q) E (fun m =>
  bind (if q_full q then keep_full t recorded m else Ok m) (fun m =>
  bind (if q_remove q then keep_days t m else Ok m) (fun m =>
  bind (if q_same q then keep_same t m else Ok m) (fun m =>
  bind (checked (q_quarter q) 4 (fun z => keep t (fun r => r_quarter r =? z)%Z) m) (fun m =>
  bind (chosen t (fun i => ask (ask_weekday i)) TypeError (q_weekday q) 7 (fun z => keep t (fun r => r_weekday r =? z)%Z) m) (fun m =>
  bind (chosen t (fun i => ask (ask_residents i)) TypeError (q_residents q) 6 (fun z => keep_household t (fun _ h => h_size h =? z)%Z) m) (fun m =>
  bind (keep_work t ask (q_work q) m) (fun m =>
  bind (checked (q_type q) 5 (fun z => keep_household t (fun _ h => h_type h =? z)%Z) m) (fun m =>
  bind (chosen t (fun i => ask (ask_life i)) NotImplementedError (q_life q) 11 (fun z => keep_person people (fun p => p_life p =? z)%Z) m) (fun m =>
  bind (checked (q_salary q) 5 (fun z => keep_person people (fun p => p_salary p =? z)%Z) m) (fun m =>
  bind (checked (q_revenue q) 5 (fun z => keep_household t (fun _ h => h_revenue h =? z)%Z) m) (fun m =>
  bind (checked (q_position q) 9 (fun z => keep_person people (fun p => p_position p =? z)%Z) m) (fun m =>
  bind (keep_range (q_age q) (fun a b => keep_person people (fun p => within (Some (inject_Z (p_age p))) a b)) m) (fun m =>
  bind (keep_range (q_mean_age q) (keep_mean_age t) m) (fun m =>
  bind (checked (q_country q) 2 (fun z => keep_person people (fun p => p_country p =? z)%Z) m) (fun m =>
  checked (q_gender q) 2 (fun z => keep_person people (fun p => p_gender p =? z)%Z) m)))))))))))))))) (raw q)).
  { eexists. split; [|unfold good, raw;
      apply step_bind; [apply step_if, step_full|];
      apply step_bind; [apply step_if, step_days|];
      apply step_bind; [apply step_if, step_same|];
      apply step_bind; [apply step_checked with (v := fun r h p => r_quarter r); [lia|intro z; apply step_keep; intros; lia]|];
      apply step_bind; [apply step_chosen; [lia|intro z; apply step_keep; intros; lia|intros (l & Nl & El); apply Ha; left; exists l; tauto]|];
      apply step_bind; [apply step_chosen; [lia|intro z; apply step_household; intros; lia|intros (l & Nl & El); apply Ha; left; exists l; tauto]|];
      apply step_bind; [apply step_work; [intro Ew; apply Ha; right; exact Ew|exact Hc]|];
      apply step_bind; [apply step_checked with (v := fun r h p => h_type h); [lia|intro z; apply step_household; intros; lia]|];
      apply step_bind; [apply step_chosen; [lia|intro z; apply step_people; intros; lia|intros (l & Nl & El); apply Ha; left; exists l; tauto]|];
      apply step_bind; [apply step_checked with (v := fun r h p => p_salary p); [lia|intro z; apply step_people; intros; lia]|];
      apply step_bind; [apply step_checked with (v := fun r h p => h_revenue h); [lia|intro z; apply step_household; intros; lia]|];
      apply step_bind; [apply step_checked with (v := fun r h p => p_position p); [lia|intro z; apply step_people; intros; lia]|];
      apply step_bind; [apply step_range with (Q := fun a b r h p => (a <= inject_Z (p_age p))%Q /\ (inject_Z (p_age p) < b)%Q); intros a b; apply step_people; intros; apply within_spec|];
      apply step_bind; [apply step_range with (Q := fun a b r h p => forall x, members_age t h x -> (a <= x)%Q /\ (x < b)%Q); exact step_mean_age|];
      apply step_bind; [apply step_checked with (v := fun r h p => p_country p); [lia|intro z; apply step_people; intros; lia]|];
      apply step_checked with (v := fun r h p => p_gender p); [lia|intro z; apply step_people; intros; lia] ].
    cbv beta. clear. intros e H.
    repeat match goal with
    | H : _ \/ _ |- _ => destruct H as [H | H]
    | H : False |- _ => destruct H
    | H : _ /\ _ |- _ => destruct H as [-> H]
    end; (apply bad_number; clear -H; tauto) || (apply bad_interval; clear -H; tauto) || (apply bad_work; exact H) || (apply bad_dict; clear -H; tauto) || (apply bad_life_dict; exact H). }
  destruct S as (E & HE & S). destruct (S _ _ (marks_all t)) as [(G & m & Em & Hm) | (G & e & Ee & He)].
  - left. split; [exact G|]. exists m. split; [exact Em|]. eapply marks_iff; [|exact Hm]. intros. unfold both at 1. tauto.
  - right. split; [exact G|]. exists e. split; [exact Ee|]. apply HE, He.
Qed.
End Tables.
