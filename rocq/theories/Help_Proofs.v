(** * Lemmas about the helpers. *)

From Coq Require Import String List ZArith QArith Bool Arith Lia Lqa.
From Coq Require Import ZifyBool ZifyNat.
From Verif Require Import Prelude PreludeFacts SpecBase SpecBaseFacts Appliance_Model Matrix_Proofs Help_Model Help_Spec.
Import ListNotations.

Open Scope Q_scope.

(** ** Indices *)

Lemma py_index_nat : forall n i, (i < n)%nat -> py_index n (Z.of_nat i) = Ok i.
Proof.
  intros n i H. unfold py_index. destruct (Z.leb_spec 0 (Z.of_nat i)); [|lia].
  destruct (Z.ltb_spec (Z.of_nat i) (Z.of_nat n)); [|lia]. rewrite Nat2Z.id. reflexivity.
Qed.

Lemma py_index_Z : forall n z, (0 <= z < Z.of_nat n)%Z -> py_index n z = Ok (Z.to_nat z).
Proof. intros n z H. rewrite <- py_index_nat with (n := n) by lia. rewrite Z2Nat.id by lia. reflexivity. Qed.

Lemma at_seq0 : forall n i, (i < n)%nat -> nth_error (seq 0 n) i = Some i.
Proof. intros n i H. rewrite (nth_error_nth' _ 0%nat) by (rewrite seq_length; exact H). rewrite seq_nth by exact H. reflexivity. Qed.

Lemma at_firstn : forall A (l : list A) n i x, (i < n)%nat -> (at_ (firstn n l) i x <-> at_ l i x).
Proof.
  intros A l. unfold at_. induction l as [|y l IH]; intros n i x H; [rewrite firstn_nil; destruct i; reflexivity|].
  destruct n as [|n]; [lia|]. destruct i as [|i]; [reflexivity|]. simpl. apply IH. lia.
Qed.
Lemma at_skipn : forall A (l : list A) n i x, at_ (skipn n l) i x <-> at_ l (n + i) x.
Proof.
  intros A l. unfold at_. induction l as [|y l IH]; intros n i x; [rewrite skipn_nil; destruct i, n; simpl; split; discriminate|].
  destruct n as [|n]; [reflexivity|]. simpl. apply IH.
Qed.

Lemma chance_fun : forall pdf t n a x y, chance pdf t n a x -> chance pdf t n a y -> x = y.
Proof.
  intros pdf t n a x y (m & r & A1 & A2 & A3) (m' & r' & B1 & B2 & B3).
  pose proof (at_fun _ _ _ _ _ A1 B1) as <-. pose proof (at_fun _ _ _ _ _ A2 B2) as <-. exact (at_fun _ _ _ _ _ A3 B3).
Qed.

(** A table built by three loops. *)
Lemma mapM3 : forall A B C (F : nat -> nat -> list A) (f : nat -> nat -> A -> result B) (nt nn : nat) (pdf : list (list (list B))) (w : C),
  mapM (fun t => mapM (fun n => mapM (f t n) (F t n)) (seq 0 nn)) (seq 0 nt) = Ok pdf ->
  List.length pdf = nt /\ forall t n, (t < nt)%nat -> (n < nn)%nat -> exists m row, at_ pdf t m /\ List.length m = nn /\ at_ m n row /\ List.length row = List.length (F t n) /\
    forall a y, at_ (F t n) a y -> exists x, at_ row a x /\ f t n y = Ok x.
Proof.
  intros A B C F f nt nn pdf w H. destruct (mapM_ok _ _ _ _ _ H) as [L K]. rewrite seq_length in L. split; [exact L|]. intros t n Ht Hn.
  destruct (K t t (at_seq0 _ _ Ht)) as (m & M1 & M2). destruct (mapM_ok _ _ _ _ _ M2) as [L2 K2]. rewrite seq_length in L2.
  destruct (K2 n n (at_seq0 _ _ Hn)) as (row & R1 & R2). destruct (mapM_ok _ _ _ _ _ R2) as [L3 K3].
  exists m, row. split; [exact M1|]. split; [exact L2|]. split; [exact R1|]. split; [exact L3|]. intros a y Ha. destruct (K3 a y Ha) as (x & X1 & X2). eauto.
Qed.

(** Adding the level. *)
Lemma add_level_on : forall pdf t n row, (exists m, at_ pdf t m /\ at_ m n row) -> exists m, at_ (add_level true pdf) t m /\ at_ m n (row ++ [1]).
Proof.
  intros pdf t n row (m & H1 & H2). eexists. split; [apply at_map; exists m; split; [exact H1|reflexivity]|]. apply at_map. exists row. split; [exact H2|reflexivity].
Qed.
Lemma at_app_l : forall A (l m : list A) i x, at_ l i x -> at_ (l ++ m) i x.
Proof. intros A l m i x H. unfold at_ in *. rewrite nth_error_app1; [exact H|]. apply nth_error_Some. congruence. Qed.
Lemma at_app_end : forall A (l : list A) x, at_ (l ++ [x]) (List.length l) x.
Proof. intros A l x. unfold at_. rewrite nth_error_app2 by lia. rewrite Nat.sub_diag. reflexivity. Qed.

(** ** Switch-on probabilities *)

Definition factor (labels : list string) (i : nat) (pdf : list Q) (ty : string) (x : Q) : Prop :=
  forall k, at_ labels k ty -> forall p, at_ pdf (i + k) p -> x == p.

Lemma times_ok : forall labels i pdf types row out, List.length types = List.length row -> times_activities labels i pdf types row = Ok out ->
  List.length out = List.length row /\ (i + List.length labels <= Nat.max i (List.length pdf))%nat /\
  (NoDup labels -> forall j ty x, at_ types j ty -> at_ row j x -> exists y, at_ out j y /\
     (~ In ty labels -> y = x) /\ forall k p, at_ labels k ty -> at_ pdf (i + k) p -> y == x * p).
Proof.
  induction labels as [|act rest IH]; intros i pdf types row out L H; cbn [times_activities] in H.
  - injection H as <-. split; [reflexivity|]. split; [simpl; lia|]. intros _ j ty x Ht Hx. exists x. split; [exact Hx|]. split; [reflexivity|]. intros k p Hk. destruct k; discriminate Hk.
  - destruct (vget pdf i) as [p|] eqn:Ep; [|discriminate]. cbn [bind] in H. apply vget_ok in Ep. pose proof (at_lt _ _ _ _ Ep) as Li.
    assert (L' : List.length types = List.length (map2 (fun ty x => if String.eqb ty act then x * p else x) types row)) by (rewrite map2_length, <- L, Nat.min_id; reflexivity).
    destruct (IH (S i) pdf types _ out L' H) as (I1 & I2 & I3). split; [congruence|]. split; [simpl; lia|].
    intros ND j ty x Ht Hx. inversion ND as [|? ? N1 N2]; subst.
    destruct (I3 N2 j ty (if String.eqb ty act then x * p else x) Ht) as (y & Y1 & Y2 & Y3). { apply at_map2. exists ty, x. auto. }
    exists y. split; [exact Y1|]. destruct (String.eqb_spec ty act) as [->|Ne].
    + split; [intro N; exfalso; apply N; left; reflexivity|]. rewrite (Y2 N1). intros k p' Hk Hp'. destruct k as [|k]; [|exfalso; apply N1; apply (at_in _ _ k); exact Hk].
      rewrite Nat.add_0_r in Hp'. rewrite (at_fun _ _ _ _ _ Ep Hp'). reflexivity.
    + split; [intro N; apply Y2; intro K; apply N; right; exact K|]. intros k p' Hk Hp'. destruct k as [|k]; [injection Hk as ->; congruence|]. apply (Y3 k p' Hk).
      replace (S i + k)%nat with (i + S k)%nat by lia. exact Hp'.
Qed.

(** All factors at most one. *)
Lemma times_bounds : forall labels i pdf types row out, List.length types = List.length row -> times_activities labels i pdf types row = Ok out ->
  (forall p, In p pdf -> 0 <= p /\ p <= 1) -> (forall x, In x row -> 0 <= x) ->
  forall j x, at_ row j x -> exists y, at_ out j y /\ 0 <= y /\ y <= x.
Proof.
  induction labels as [|act rest IH]; intros i pdf types row out L H Hp Hr j x Hx; cbn [times_activities] in H.
  - injection H as <-. exists x. split; [exact Hx|]. split; [apply Hr; eapply at_in; exact Hx|lra].
  - destruct (vget pdf i) as [p|] eqn:Ep; [|discriminate]. cbn [bind] in H. apply vget_ok in Ep. destruct (Hp p (at_in _ _ _ _ Ep)) as [P0 P1].
    assert (L' : List.length types = List.length (map2 (fun ty x => if String.eqb ty act then x * p else x) types row)) by (rewrite map2_length, <- L, Nat.min_id; reflexivity).
    destruct (lt_at _ types j) as [ty Hty]; [rewrite L; eapply at_lt; exact Hx|]. pose proof (Hr x (at_in _ _ _ _ Hx)) as X0.
    destruct (IH (S i) pdf types _ out L' H Hp) with (j := j) (x := if String.eqb ty act then x * p else x) as (y & Y1 & Y2 & Y3).
    + intros z Hz. apply in_at in Hz. destruct Hz as [k Hz]. apply at_map2 in Hz. destruct Hz as (ty' & z' & _ & Z2 & ->). pose proof (Hr z' (at_in _ _ _ _ Z2)). destruct (String.eqb ty' act); [nra|assumption].
    + apply at_map2. exists ty, x. auto.
    + exists y. split; [exact Y1|]. split; [exact Y2|]. destruct (String.eqb ty act); [nra|exact Y3].
Qed.

(** ** Absorbing states *)

Lemma nonzero_iff : forall x, nonzero x = true <-> ~ x == 0.
Proof. intro x. unfold nonzero. rewrite negb_true_iff. split; intro H; [intro E; apply Qeq_bool_iff in E; congruence|]. destruct (Qeq_bool x 0) eqn:E; [apply Qeq_bool_iff in E; tauto|reflexivity]. Qed.

Lemma starts_in : forall pdf s, In s (starts pdf) <-> exists b, goes pdf s b.
Proof.
  intros pdf s. unfold starts. rewrite filter_In, in_seq. split.
  - intros [_ H]. destruct (nth_error pdf s) as [r|] eqn:E; [|discriminate]. apply existsb_exists in H. destruct H as (x & Hx & N). apply in_at in Hx. destruct Hx as [b Hb].
    exists b, r, x. split; [exact E|]. split; [exact Hb|]. now apply nonzero_iff.
  - intros (b & r & x & H1 & H2 & H3). split; [apply at_lt in H1; lia|]. unfold at_ in H1. rewrite H1. apply existsb_exists. exists x. split; [eapply at_in; exact H2|]. now apply nonzero_iff.
Qed.
Lemma ends_in : forall k pdf s, square k pdf -> (In s (ends pdf) <-> exists a, goes pdf a s).
Proof.
  intros k pdf s [S1 S2]. unfold ends. rewrite filter_In, in_seq. split.
  - intros [_ H]. apply existsb_exists in H. destruct H as (r & Hr & N). destruct (nth_error r s) as [x|] eqn:E; [|discriminate]. apply in_at in Hr. destruct Hr as [a Ha].
    exists a, r, x. split; [exact Ha|]. split; [exact E|]. now apply nonzero_iff.
  - intros (a & r & x & H1 & H2 & H3). split.
    + pose proof (at_lt _ _ _ _ H2) as Ls. rewrite (S2 r (at_in _ _ _ _ H1)) in Ls. destruct pdf as [|r0 pdf]; [destruct a; discriminate H1|]. cbn [width]. rewrite (S2 r0 (or_introl eq_refl)). lia.
    + apply existsb_exists. exists r. split; [eapply at_in; exact H1|]. unfold at_ in H2. rewrite H2. now apply nonzero_iff.
Qed.
Lemma missing_in : forall l m s, In s (missing l m) <-> In s l /\ ~ In s m.
Proof.
  intros l m s. unfold missing. rewrite filter_In, negb_true_iff. split; intros [H1 H2]; (split; [exact H1|]).
  - intro K. assert (existsb (Nat.eqb s) m = true); [|congruence]. apply existsb_exists. exists s. split; [exact K|apply Nat.eqb_refl].
  - destruct (existsb (Nat.eqb s) m) eqn:E; [|reflexivity]. apply existsb_exists in E. destruct E as (x & Hx & E). apply Nat.eqb_eq in E. subst x. tauto.
Qed.
Lemma same_iff : forall l m, same l m = true <-> l = m.
Proof.
  induction l as [|a l IH]; intros [|b m]; simpl; try (split; discriminate || reflexivity). rewrite andb_true_iff, IH, Nat.eqb_eq. split; [intros [-> ->]; reflexivity|intros [= -> ->]; auto].
Qed.

(** What is known before the m-th matrix of the rest. *)
Definition known (old : list nat) (pdfs : list (list (list Q))) (m : nat) (s : nat) : Prop :=
  match m with O => In s old | S k => exists p, at_ pdfs k p /\ In s (ends p) end.
Definition stops (old : list nat) (pdfs : list (list (list Q))) (m s : nat) : Prop :=
  known old pdfs m s /\ exists p, at_ pdfs m p /\ ~ In s (starts p).

Lemma stops_S : forall old p rest m s, stops old (p :: rest) (S m) s <-> stops (ends p) rest m s.
Proof.
  intros old p rest m s. unfold stops, known. split; intros [K (q & Q1 & Q2)]; (split; [|exists q; split; assumption]).
  - destruct K as (x & X1 & X2). destruct m as [|m]; [injection X1 as ->; exact X2|]. exists x. split; assumption.
  - destruct m as [|m]; [exists p; split; [reflexivity|exact K]|]. exact K.
Qed.

Lemma scan_spec : forall pdfs i old cur r c, scan i old cur pdfs = (r, c) ->
  (forall t s, (exists l, In (t, l) r /\ In s l) <-> exists m, t = (i + m)%nat /\ stops old pdfs m s) /\
  (forall s, In s c <-> (In s cur /\ forall m p, at_ pdfs m p -> ~ In s (starts p)) \/
     exists m, stops old pdfs m s /\ forall m' p, (m < m')%nat -> at_ pdfs m' p -> ~ In s (starts p)) /\
  (forall t l, In (t, l) r -> (i <= t < i + List.length pdfs)%nat) /\ NoDup (map fst r).
Proof.
  induction pdfs as [|pdf rest IH]; intros i old cur r c H; cbn [scan] in H.
  - injection H as <- <-. split; [|split; [|split; [intros t l []|constructor]]].
    + intros t s. split; [intros (l & [] & _)|intros (m & _ & _ & (p & Hp & _)); destruct m; discriminate Hp].
    + intro s. split; [intro Hs; left; split; [exact Hs|intros m p Hp; destruct m; discriminate Hp]|intros [[Hs _]|(m & (_ & (p & Hp & _)) & _)]; [exact Hs|destruct m; discriminate Hp]].
  - destruct (same old (starts pdf)) eqn:Es.
    + apply same_iff in Es. destruct (IH _ _ _ _ _ H) as (I1 & I2 & I3 & I4).
      assert (Z : forall s, ~ stops old (pdf :: rest) 0 s). { intros s [K (p & P1 & P2)]. injection P1 as <-. cbn [known] in K. rewrite Es in K. tauto. }
      split; [|split; [|split; [intros t l Hl; specialize (I3 t l Hl); simpl; lia|exact I4]]].
      * intros t s. rewrite I1. split.
        -- intros (m & -> & Hm). exists (S m). split; [lia|]. now apply stops_S.
        -- intros (m & -> & Hm). destruct m as [|m]; [exfalso; exact (Z s Hm)|]. exists m. split; [lia|]. now apply stops_S in Hm.
      * intro s. rewrite I2, missing_in. split.
        -- intros [[[A1 A2] A3]|(m & M1 & M2)].
           ++ left. split; [exact A1|]. intros [|m] p Hp; [injection Hp as <-; exact A2|exact (A3 m p Hp)].
           ++ right. exists (S m). split; [now apply stops_S|]. intros [|m'] p L Hp; [lia|]. apply (M2 m' p); [lia|exact Hp].
        -- intros [[A1 A2]|(m & M1 & M2)].
           ++ left. split; [split; [exact A1|apply (A2 0%nat pdf eq_refl)]|]. intros m p Hp. exact (A2 (S m) p Hp).
           ++ right. destruct m as [|m]; [exfalso; exact (Z s M1)|]. exists m. split; [now apply stops_S in M1|]. intros m' p L Hp. apply (M2 (S m') p); [lia|exact Hp].
    + destruct (scan (S i) (ends pdf) (missing cur (starts pdf) ++ missing old (starts pdf)) rest) as [r' c'] eqn:E. injection H as <- <-.
      destruct (IH _ _ _ _ _ E) as (I1 & I2 & I3 & I4).
      assert (Z : forall s, stops old (pdf :: rest) 0 s <-> In s (missing old (starts pdf))).
      { intro s. rewrite missing_in. unfold stops, known. split; [intros [K (p & P1 & P2)]; injection P1 as <-; auto|intros [K1 K2]; split; [exact K1|exists pdf; split; [reflexivity|exact K2]]]. }
      split; [|split; [|split]].
      * intros t s. split.
        -- intros (l & [Hl|Hl] & Hs); [injection Hl as <- <-; exists 0%nat; split; [lia|now apply Z]|].
           destruct (proj1 (I1 t s) (ex_intro _ l (conj Hl Hs))) as (m & -> & Hm). exists (S m). split; [lia|now apply stops_S].
        -- intros (m & -> & Hm). destruct m as [|m].
           ++ exists (missing old (starts pdf)). split; [left; f_equal; lia|now apply Z].
           ++ apply stops_S in Hm. destruct (proj2 (I1 (S i + m)%nat s) (ex_intro _ m (conj eq_refl Hm))) as (l & L1 & L2). exists l. split; [right; replace (i + S m)%nat with (S i + m)%nat by lia; exact L1|exact L2].
      * intro s. rewrite I2, in_app_iff, (missing_in cur). split.
        -- intros [[[[A1 A2]|A1] A3]|(m & M1 & M2)].
           ++ left. split; [exact A1|]. intros [|m] p Hp; [injection Hp as <-; exact A2|exact (A3 m p Hp)].
           ++ right. exists 0%nat. split; [now apply Z|]. intros [|m] p L Hp; [lia|exact (A3 m p Hp)].
           ++ right. exists (S m). split; [now apply stops_S|]. intros [|m'] p L Hp; [lia|]. apply (M2 m' p); [lia|exact Hp].
        -- intros [[A1 A2]|(m & M1 & M2)].
           ++ left. split; [left; split; [exact A1|apply (A2 0%nat pdf eq_refl)]|]. intros m p Hp. exact (A2 (S m) p Hp).
           ++ destruct m as [|m].
              ** left. split; [right; now apply Z|]. intros m p Hp. apply (M2 (S m) p); [lia|exact Hp].
              ** right. exists m. split; [now apply stops_S in M1|]. intros m' p L Hp. apply (M2 (S m') p); [lia|exact Hp].
      * intros t l [Hl|Hl]; [injection Hl as <- <-; simpl; lia|]. specialize (I3 t l Hl). simpl. lia.
      * cbn [map fst]. constructor; [|exact I4]. intro K. apply in_map_iff in K. destruct K as ((t & l) & K1 & K2). cbn [fst] in K1. subst t. specialize (I3 i l K2). lia.
Qed.

Lemma rev_head : forall A (l : list A) x m, rev l = x :: m -> at_ l (List.length l - 1) x.
Proof.
  intros A l x m H. assert (E : l = rev m ++ [x]) by (rewrite <- (rev_involutive l), H; reflexivity). subst l.
  rewrite app_length. cbn [List.length]. replace (List.length (rev m) + 1 - 1)%nat with (List.length (rev m)) by lia. apply at_app_end.
Qed.

Lemma stops_stuck : forall k pdfs last m s, (forall p, In p pdfs -> square k p) -> at_ pdfs (List.length pdfs - 1) last -> (stops (ends last) pdfs m s <-> stuck_at pdfs m s).
Proof.
  intros k pdfs last m s Hk Hl. unfold stops, stuck_at. split.
  - intros [K (p & P1 & P2)]. rewrite starts_in in P2. destruct m as [|m].
    + cbn [known] in K. exists last, p. split; [exact Hl|]. split; [exact P1|]. split; [|exact P2]. rewrite (ends_in k) in K; [exact K|apply Hk; eapply at_in; exact Hl].
    + destruct K as (q & Q1 & Q2). exists q, p. split; [exact Q1|]. split; [exact P1|]. split; [|exact P2]. rewrite (ends_in k) in Q2; [exact Q2|apply Hk; eapply at_in; exact Q1].
  - intros (q & p & Q1 & P1 & A1 & A2). split; [|exists p; split; [exact P1|rewrite starts_in; exact A2]]. destruct m as [|m]; cbn [before known] in *.
    + pose proof (at_fun _ _ _ _ _ Hl Q1) as <-. rewrite (ends_in k); [exact A1|apply Hk; eapply at_in; exact Hl].
    + exists q. split; [exact Q1|]. rewrite (ends_in k); [exact A1|apply Hk; eapply at_in; exact Q1].
Qed.
