(** * Proofs about the daily starts of activities and about activity profiles. *)

From Coq Require Import String List ZArith QArith Bool Arith Lia Lqa Permutation.
From Verif Require Import Prelude PreludeFacts SpecBase SpecBaseFacts Parse_Model Parse_Spec Parse_Proofs Parse_DurProofs Parse_TpmProofs Appliance_Model StateMetric_Model StateMetric_Spec
  Matrix_Proofs GTou_Model GTou_Spec GTou_Proofs GTou_LabelProofs GTou_HouseProofs GTou_SparseProofs GTou_StatProofs.
Import ListNotations.
Local Open Scope Z_scope.

(** ** Daily starts *)

Lemma nth_bincount : forall l j, nth j (bincount l 0) 0%nat = count_nat j l.
Proof.
  intros l j. destruct (nth_error (bincount l 0) j) as [c|] eqn:E.
  - rewrite (nth_error_nth _ _ 0%nat E). apply (bincount_nth _ _ _ _ E).
  - rewrite nth_overflow by (apply nth_error_None; exact E). apply nth_error_None in E. unfold bincount in E. rewrite map_length, seq_length in E.
    rewrite count_nat_filter. enough (X : forall x, In x l -> (x < j)%nat). { clear E. induction l as [|x l IH]; [reflexivity|]. cbn. destruct (Nat.eqb_spec j x) as [->|]; [specialize (X x (or_introl eq_refl)); lia|]. apply IH. intros; apply X; right; auto. }
    intros x Hx. pose proof (list_max_nat_ge l x Hx). destruct l; [destruct Hx|]. lia.
Qed.

Lemma bincount_map : forall l, bincount l 0 = map (fun k => count_nat k l) (seq 0 (length (bincount l 0))).
Proof. intro l. unfold bincount at 1. f_equal. f_equal. unfold bincount. rewrite map_length, seq_length. reflexivity. Qed.

Lemma count_nat_map : forall A (f : A -> nat) k l, count_nat k (map f l) = length (filter (fun x => Nat.eqb k (f x)) l).
Proof. intros A f k l. rewrite count_nat_filter. induction l as [|x l IH]; [reflexivity|]. cbn. destruct (Nat.eqb k (f x)); cbn; rewrite IH; reflexivity. Qed.

Lemma nodup_map_in : forall A B (f : A -> B) l, (forall x y, In x l -> In y l -> f x = f y -> x = y) -> NoDup l -> NoDup (map f l).
Proof.
  intros A B f. induction l as [|x l IH]; intros I N; [constructor|]. inversion N; subst. cbn. constructor.
  - intro X. apply in_map_iff in X. destruct X as (y & E & Hy). rewrite (I y x) in Hy; [contradiction|right; exact Hy|left; reflexivity|exact E].
  - apply IH; [|assumption]. intros; apply I; auto; right; auto.
Qed.

Lemma nodup_same_length : forall A (l l' : list A), NoDup l -> NoDup l' -> (forall x, In x l <-> In x l') -> length l = length l'.
Proof. intros A l l' N N' H. apply Nat.le_antisymm; apply NoDup_incl_length; auto; intros x Hx; apply H, Hx. Qed.

Lemma take_at_ok : forall (arr : list Z) idx, (forall p, In p idx -> (p < length arr)%nat) -> take_at arr idx = Ok (map (fun p => nth p arr 0) idx).
Proof. intros arr idx H. unfold take_at. apply mapM_map_total. intros p Hp. rewrite (nth_error_nth' arr 0) by (apply H; exact Hp). reflexivity. Qed.

Section Starts.
  Variables (n w : nat) (states : list (list string)) (hh ds : list Z).
  Hypothesis HS : sized n w states.
  Hypothesis Hn : (0 < n)%nat.
  Hypothesis Hw : (0 < w)%nat.
  Hypothesis Lh : length hh = n.
  Hypothesis Ld : length ds = n.
  Hypothesis Ih : forall h, In h hh -> 0 <= h.
  Hypothesis Id : forall d, In d ds -> 0 <= d < 4.

  Variable tr : trans string.
  Hypothesis Htr : listing (changes w states) (tr_times tr) (tr_persons tr) (tr_new tr) (tr_old tr).

  Let L := length (tr_times tr).
  Let T k := nth k (tr_times tr) 0%nat.
  Let P k := nth k (tr_persons tr) 0%nat.
  Let X k := nth k (tr_new tr) ""%string.
  Let key k := nth (P k) hh 0 * 4 + nth (P k) ds 0.

  Lemma line_at : forall k, (k < L)%nat -> exists old, changes w states (T k) (P k) (X k) old.
  Proof.
    intros k Hk. destruct Htr as (L1 & L2 & L3 & Ex & _). destruct (lt_at _ (tr_old tr) k) as (o & Ho); [unfold L in Hk; lia|]. exists o. apply Ex. exists k. unfold L in Hk. unfold T, P, X. repeat split; try (apply nth_error_nth'; lia). exact Ho.
  Qed.

  Lemma at_line : forall i p new old, changes w states i p new old -> exists k, (k < L)%nat /\ T k = i /\ P k = p /\ X k = new.
  Proof.
    intros i p new old H. destruct Htr as (L1 & L2 & L3 & Ex & _). apply Ex in H. destruct H as (k & H1 & H2 & H3 & _). exists k. split; [apply (at_lt _ _ _ _ H1)|]. unfold T, P, X. repeat split; apply nth_error_nth; assumption.
  Qed.

  Lemma line_person : forall k, (k < L)%nat -> (P k < n)%nat.
  Proof. intros k Hk. destruct (line_at k Hk) as (o & (H & _) & _). destruct (diary_sized _ _ _ _ _ _ _ HS H). assumption. Qed.

  Lemma line_inj : forall k k', (k < L)%nat -> (k' < L)%nat -> T k = T k' -> P k = P k' -> k = k'.
  Proof.
    intros k k' H H' E E'. destruct Htr as (L1 & L2 & L3 & _ & Lx). unfold L in *. unfold T, P in *.
    assert (A : forall k, (k < length (tr_times tr))%nat -> at_ (tr_times tr) k (nth k (tr_times tr) 0%nat) /\ at_ (tr_persons tr) k (nth k (tr_persons tr) 0%nat)) by (intros; split; apply nth_error_nth'; lia).
    destruct (A k H), (A k' H'). destruct (lt_eq_lt_dec k k') as [[G|]|G]; [|assumption|]; exfalso; [specialize (Lx k k' _ _ _ _ G H0 H2 H1 H3)|specialize (Lx k' k _ _ _ _ G H2 H0 H3 H1)]; lia.
  Qed.

  Lemma belongs_nth : forall h d p, (p < n)%nat -> (belongs hh ds h d p <-> nth p hh 0 = h /\ nth p ds 0 = d).
  Proof.
    intros h d p Hp. unfold belongs, at_. rewrite (nth_error_nth' hh 0), (nth_error_nth' ds 0) by lia. split; [intros ([= <-] & [= <-]); auto|intros (<- & <-); auto].
  Qed.

  Lemma key_range : forall p, (p < n)%nat -> 0 <= nth p hh 0 /\ 0 <= nth p ds 0 < 4.
  Proof. intros p Hp. split; [apply Ih|apply Id]; apply nth_In; lia. Qed.

  Variable f : string -> bool.
  Let sel := filter (fun k => f (X k)) (seq 0 L).
  Let keys := map (fun k => Z.to_nat (key k)) sel.

  Lemma starts_keys : compress (map f (tr_new tr)) (map2 (fun x y => x * 4 + y) (map (fun p => nth p hh 0) (tr_persons tr)) (map (fun p => nth p ds 0) (tr_persons tr))) = map key sel.
  Proof.
    destruct Htr as (L1 & L2 & L3 & _).
    rewrite (compress_seq _ 0 _ _ (fun k => f (X k))).
    - rewrite map2_length, !map_length, Nat.min_id, L1. fold L. apply map_ext_in. intros k Hk. apply filter_In in Hk. destruct Hk as (Hk & _). apply in_seq in Hk. unfold L in Hk.
      apply nth_error_nth. apply at_map2. exists (nth (P k) hh 0), (nth (P k) ds 0). unfold P. repeat split; apply at_map; eexists; split; try reflexivity; apply nth_error_nth'; lia.
    - rewrite map2_length, !map_length. lia.
    - intros k b Hb. apply at_map in Hb. destruct Hb as (x & Hx & ->). unfold X. rewrite (nth_error_nth _ _ _ Hx). reflexivity.
  Qed.

  Lemma starts_count : forall h d k, 0 <= h -> 0 <= d < 4 -> (starts_on w states hh ds (fun a => f a = true) h d k <-> count_nat (Z.to_nat (h * 4 + d)) keys = k).
  Proof.
    intros h d k Hh Hd.
    assert (C : starts_on w states hh ds (fun a => f a = true) h d (count_nat (Z.to_nat (h * 4 + d)) keys)).
    { exists (map (fun k => (T k, P k)) (filter (fun k => Nat.eqb (Z.to_nat (h * 4 + d)) (Z.to_nat (key k))) sel)). split; [|split].
      - apply nodup_map_in; [|apply NoDup_filter, NoDup_filter, seq_NoDup]. intros x y Hx Hy [= E E']. apply filter_In in Hx, Hy. destruct Hx as (Hx & _), Hy as (Hy & _). unfold sel in Hx, Hy. apply filter_In in Hx, Hy. destruct Hx as (Hx & _), Hy as (Hy & _). apply in_seq in Hx, Hy. apply line_inj; auto; lia.
      - rewrite map_length. unfold keys. symmetry. apply count_nat_map.
      - intros i p. rewrite in_map_iff. split.
        + intros (x & [= <- <-] & Hx). apply filter_In in Hx. destruct Hx as (Hx & E). unfold sel in Hx. apply filter_In in Hx. destruct Hx as (Hx & Fx). apply in_seq in Hx. assert (Hp := line_person x ltac:(lia)). destruct (key_range _ Hp).
          split; [apply belongs_nth; [exact Hp|]; apply Nat.eqb_eq in E; unfold key in E; lia|]. destruct (line_at x) as (o & Ho); [lia|]. exists (X x), o. auto.
        + intros (B & new & old & Ch & Fn). destruct (at_line _ _ _ _ Ch) as (x & Hx & <- & <- & <-). exists x. split; [reflexivity|]. apply filter_In. split; [unfold sel; apply filter_In; split; [apply in_seq; lia|exact Fn]|].
          apply belongs_nth in B; [|apply line_person; exact Hx]. destruct B as (<- & <-). apply Nat.eqb_refl. }
    split; [|intros <-; exact C]. destruct C as (l & N & E & H). intros (l' & N' & E' & H'). rewrite <- E, <- E'. apply nodup_same_length; auto. intros [i p]. rewrite H, H'. reflexivity.
  Qed.

  Lemma starts_entries : forall j, (0 < j)%nat -> exists l, household_list (fun h d => starts_on w states hh ds (fun a => f a = true) h d j) l /\
    (nth j (starts_pdf (map key sel) n) 0 == q_of (length l) / q_of n)%Q.
  Proof.
    intros j Hj. set (B := bincount keys 0). set (ks := filter (fun k => Nat.eqb j (count_nat k keys)) (seq 0 (length B))).
    exists (map (fun k => (Z.of_nat k / 4, Z.of_nat k mod 4)) ks). split; [split|].
    - apply nodup_map_in; [|apply NoDup_filter, seq_NoDup]. intros x y _ _ [= E1 E2]. pose proof (Z.div_mod (Z.of_nat x) 4 ltac:(lia)). pose proof (Z.div_mod (Z.of_nat y) 4 ltac:(lia)). lia.
    - intros h d. rewrite in_map_iff. split.
      + intros (k & [= <- <-] & Hk). apply filter_In in Hk. destruct Hk as (_ & E). apply Nat.eqb_eq in E. pose proof (Z.div_mod (Z.of_nat k) 4 ltac:(lia)) as Z1. pose proof (Z.mod_pos_bound (Z.of_nat k) 4 ltac:(lia)).
        apply starts_count; [apply Z.div_pos; lia|lia|]. replace (Z.of_nat k / 4 * 4 + Z.of_nat k mod 4) with (Z.of_nat k) by lia. rewrite Nat2Z.id. congruence.
      + intro S. assert (R : 0 <= h /\ 0 <= d < 4).
        { destruct S as (l & N & E & H). destruct l as [|[i p] l]; [cbn in E; lia|]. destruct (proj1 (H i p) (or_introl eq_refl)) as ((B1 & B2) & _). split; [apply Ih; eapply at_in; eauto|apply Id; eapply at_in; eauto]. }
        destruct R as (Rh & Rd). apply starts_count in S; auto. exists (Z.to_nat (h * 4 + d)). split.
        * rewrite Z2Nat.id by lia. f_equal; [symmetry; apply (Z.div_unique _ _ _ d); lia|symmetry; apply (Z.mod_unique _ _ h); lia].
        * apply filter_In. split; [|apply Nat.eqb_eq; congruence]. apply in_seq. split; [lia|]. cbn. destruct (Nat.lt_ge_cases (Z.to_nat (h * 4 + d)) (length B)) as [G|G]; [exact G|exfalso].
          assert (Z0 : nth (Z.to_nat (h * 4 + d)) B 0%nat = 0%nat) by (apply nth_overflow; exact G). unfold B in Z0. rewrite nth_bincount in Z0. lia.
    - unfold starts_pdf. rewrite map_map. change (map (fun x => Z.to_nat (key x)) sel) with keys. rewrite map_length. change (fun c : nat => (q_nat c / q_nat n)%Q) with (fun c : nat => (q_of c / q_of n)%Q).
      assert (Z0 : (q_of 0 / q_of n == 0)%Q) by (unfold q_of, Qdiv; cbn; apply Qmult_0_l).
      assert (E : (nth j (map (fun c => q_of c / q_of n) (bincount (bincount keys 0) 0)) 0 == q_of (nth j (bincount (bincount keys 0) 0) 0%nat) / q_of n)%Q).
      { destruct (Nat.lt_ge_cases j (length (bincount (bincount keys 0) 0))) as [G|G].
        - rewrite (nth_indep _ 0%Q (q_of 0 / q_of n)%Q) by (rewrite map_length; exact G). rewrite (map_nth (fun c => (q_of c / q_of n)%Q)). reflexivity.
        - rewrite !nth_overflow by (rewrite ?map_length; exact G). symmetry. exact Z0. }
      rewrite E, nth_bincount. rewrite (bincount_map keys). fold B. rewrite count_nat_map. reflexivity.
  Qed.
End Starts.

Lemma starts_main : forall n w states hh ds, sized n w states -> (0 < n)%nat -> (0 < w)%nat -> length hh = n -> length ds = n ->
  (forall h, In h hh -> 0 <= h) -> (forall d, In d ds -> 0 <= d < 4) ->
  exists dict, parse_daily_activity_starts w states hh ds = Ok dict /\
    (forall a, a <> "active_occupancy"%string -> (dget String.eqb dict a = None <-> forall i p old, ~ changes w states i p a old)) /\
    (forall a pdf, a <> "active_occupancy"%string -> dget String.eqb dict a = Some pdf -> forall j, (0 < j)%nat ->
       exists l, household_list (fun h d => starts_on w states hh ds (fun b => b = a) h d j) l /\ (nth j pdf 0 == q_of (length l) / q_of n)%Q) /\
    (exists pdf, dget String.eqb dict "active_occupancy"%string = Some pdf /\ forall j, (0 < j)%nat ->
       exists l, household_list (fun h d => starts_on w states hh ds (fun b => b = "sleeping" \/ b = "away")%string h d j) l /\ (nth j pdf 0 == q_of (length l) / q_of n)%Q).
Proof.
  intros n w states hh ds HS Hn Hw Lh Ld Ih Id. unfold parse_daily_activity_starts.
  destruct (@transitions_exact string String.eqb String.eqb_eq (mkTable w states)) as (tr & E & Htr); [intros p r Hr; apply HS; eapply at_in; eauto|exact Hw|]. unfold exact_lines in Htr. cbn [width rows] in Htr.
  assert (Bd : forall p, In p (tr_persons tr) -> (p < n)%nat).
  { intros p Hp. apply in_at in Hp. destruct Hp as (k & Hk). assert (H : (nth k (tr_persons tr) 0%nat < n)%nat). { apply (line_person n w states hh ds HS Hn Hw Lh Ld Ih Id tr Htr k). destruct Htr as (L1 & _). rewrite <- L1. apply (at_lt _ _ _ _ Hk). } rewrite (nth_error_nth _ _ _ Hk) in H. exact H. }
  rewrite E. cbn [bind]. rewrite (take_at_ok hh) by (intros p Hp; rewrite Lh; apply Bd, Hp). cbn [bind]. rewrite (take_at_ok ds) by (intros p Hp; rewrite Ld; apply Bd, Hp). cbn [bind].
  rewrite (proj1 HS). eexists. split; [reflexivity|].
  assert (Ent : forall (f : string -> bool) R, (forall a, f a = true <-> R a) -> forall j, (0 < j)%nat -> exists l, household_list (fun h d => starts_on w states hh ds R h d j) l /\
     (nth j (starts_pdf (compress (map f (tr_new tr)) (map2 (fun x y => x * 4 + y)%Z (map (fun p => nth p hh 0%Z) (tr_persons tr)) (map (fun p => nth p ds 0%Z) (tr_persons tr)))) n) 0 == q_of (length l) / q_of n)%Q).
  { intros f R HQ j Hj. rewrite (starts_keys n w states hh ds Hn Hw Lh Ld Ih Id tr Htr f). destruct (starts_entries n w states hh ds HS Hn Hw Lh Ld Ih Id tr Htr f j Hj) as (l & (N & Hl) & V). exists l. split; [|exact V]. split; [exact N|]. intros h d. rewrite Hl. unfold starts_on.
    split; intros (ls & A & B & C); exists ls; (split; [exact A|split; [exact B|]]); intros i p; rewrite C; (split; intros (D & new & old & F & G); split; [exact D| |exact D|]; exists new, old; split; try exact F; apply HQ; exact G). }
  set (g := fun f : string -> bool => starts_pdf (compress (map f (tr_new tr)) (map2 (fun x y => x * 4 + y) (map (fun p => nth p hh 0) (tr_persons tr)) (map (fun p => nth p ds 0) (tr_persons tr)))) n) in *.
  change (forall (f : string -> bool) R, (forall a, f a = true <-> R a) -> forall j, (0 < j)%nat -> exists l, household_list (fun h d => starts_on w states hh ds R h d j) l /\ (nth j (g f) 0 == q_of (length l) / q_of n)%Q) in Ent.
  assert (Dg : forall a l, dget String.eqb (map (fun a => (a, g (String.eqb a))) l) a = if in_dec string_dec a l then Some (g (String.eqb a)) else None).
  { intros a l. induction l as [|b l IH]; [reflexivity|]. cbn [map dget]. destruct (String.eqb_spec a b) as [->|N].
    - destruct (in_dec string_dec b (b :: l)) as [|N]; [reflexivity|]. exfalso. apply N. left. reflexivity.
    - rewrite IH. destruct (in_dec string_dec a l), (in_dec string_dec a (b :: l)); try reflexivity; exfalso; [apply n0; right; assumption|]. destruct i as [->|]; congruence. }
  assert (Inn : forall a, In a (uniq String.compare (tr_new tr)) <-> exists i p old, changes w states i p a old).
  { intro a. rewrite (uniq_in string_order). destruct Htr as (L1 & L2 & L3 & Ex & _). split.
    - intro Ha. apply in_at in Ha. destruct Ha as (k & Hk). pose proof (at_lt _ _ _ _ Hk). destruct (lt_at _ (tr_times tr) k) as (i & Hi); [lia|]. destruct (lt_at _ (tr_persons tr) k) as (p & Hp); [lia|]. destruct (lt_at _ (tr_old tr) k) as (o & Ho); [lia|]. exists i, p, o. apply Ex. exists k. repeat split; assumption.
    - intros (i & p & o & H). apply Ex in H. destruct H as (k & _ & _ & Hk & _). eapply at_in; eauto. }
  split; [|split].
  - intros a Na. rewrite (dget_dset_other _ _ _ String.eqb_eq) by exact Na. rewrite Dg. destruct (in_dec _ _ _) as [I|I]; rewrite Inn in I.
    + split; [discriminate|]. intro H. destruct I as (i & p & o & C). exfalso. apply (H i p o C).
    + split; [|reflexivity]. intros _ i p o C. apply I. eauto.
  - intros a pdf Na Hd. rewrite (dget_dset_other _ _ _ String.eqb_eq) in Hd by exact Na. rewrite Dg in Hd. destruct (in_dec _ _ _); [|discriminate]. injection Hd as <-. apply Ent. intro b. rewrite String.eqb_eq. split; congruence.
  - eexists. split; [apply (dget_dset_same _ _ _ String.eqb_eq)|]. apply Ent. intro b. rewrite orb_true_iff, !String.eqb_eq. reflexivity.
Qed.

(** ** Activity profiles *)

Lemma sorted_keys_eq : forall l m : list (Z * Z), (forall k k' a b, (k < k')%nat -> at_ l k a -> at_ l k' b -> key_sorted a b) ->
  (forall k k' a b, (k < k')%nat -> at_ m k a -> at_ m k' b -> key_sorted a b) -> (forall x, In x l <-> In x m) -> l = m.
Proof.
  induction l as [|x l IH]; intros m Hl Hm H.
  - destruct m as [|y m]; [reflexivity|]. destruct (proj2 (H y) (or_introl eq_refl)).
  - destruct m as [|y m]; [destruct (proj1 (H x) (or_introl eq_refl))|].
    assert (Lx : forall z, In z l -> key_sorted x z) by (intros z Hz; apply in_at in Hz; destruct Hz as (k & Hk); apply (Hl 0%nat (S k) x z); [lia|reflexivity|exact Hk]).
    assert (Ly : forall z, In z m -> key_sorted y z) by (intros z Hz; apply in_at in Hz; destruct Hz as (k & Hk); apply (Hm 0%nat (S k) y z); [lia|reflexivity|exact Hk]).
    assert (As : forall a b, key_sorted a b -> key_sorted b a -> False) by (unfold key_sorted; intros [a1 a2] [b1 b2]; cbn; lia).
    assert (Ir : forall a, key_sorted a a -> False) by (intros a Ha; apply (As a a); exact Ha).
    assert (E : x = y). { destruct (proj1 (H x) (or_introl eq_refl)) as [|Hx]; [congruence|]. destruct (proj2 (H y) (or_introl eq_refl)) as [|Hy]; [congruence|]. exfalso. apply (As x y); auto. }
    subst y. f_equal. apply IH.
    + intros k k' a b Hk Ha Hb. apply (Hl (S k) (S k')); [lia|exact Ha|exact Hb].
    + intros k k' a b Hk Ha Hb. apply (Hm (S k) (S k')); [lia|exact Ha|exact Hb].
    + intro z. split; intro Hz.
      * destruct (proj1 (H z) (or_intror Hz)) as [<-|]; [|assumption]. exfalso. apply (Ir x). apply Lx, Hz.
      * destruct (proj2 (H z) (or_intror Hz)) as [<-|]; [|assumption]. exfalso. apply (Ir x). apply Ly, Hz.
Qed.

Lemma col_map : forall i (F : Z * Z -> Z) keys (g : list (list Z)), length g = length keys -> (forall k x, at_ keys k x -> diary g k i (F x)) ->
  mapM (fun r => vget r i) g = Ok (map F keys).
Proof.
  intros i F. induction keys as [|x keys IH]; intros [|r g] L H; try discriminate; [reflexivity|]. cbn [mapM map].
  destruct (H 0%nat x eq_refl) as (r' & [= <-] & Hr). rewrite (proj2 (vget_ok _ r i (F x)) Hr). cbn [bind]. rewrite IH; [reflexivity|cbn in L; lia|]. intros k y Hy. destruct (H (S k) y Hy) as (r' & Hr' & D). exists r'. split; assumption.
Qed.

Lemma count_true_map : forall A (f : A -> bool) l, count_true (map f l) = length (filter f l).
Proof. intros A f l. unfold count_true. induction l as [|x l IH]; [reflexivity|]. cbn. destruct (f x); cbn; rewrite IH; reflexivity. Qed.

Lemma map2_map_map : forall A B C D (f : B -> C -> D) (g : A -> B) (h : A -> C) l, map2 f (map g l) (map h l) = map (fun x => f (g x) (h x)) l.
Proof. induction l as [|x l IH]; [reflexivity|]. cbn. rewrite IH. reflexivity. Qed.

Lemma how_many_pos : forall n f, 0 < how_many n f <-> exists p, (p < n)%nat /\ f p = true.
Proof.
  intros n f. unfold how_many. split.
  - intro H. destruct (filter f (seq 0 n)) as [|p l] eqn:E; [cbn in H; lia|]. exists p. assert (I : In p (filter f (seq 0 n))) by (rewrite E; left; reflexivity). apply filter_In in I. destruct I as (I & Fp). apply in_seq in I. split; [lia|exact Fp].
  - intros (p & Hp & Fp). assert (I : In p (filter f (seq 0 n))) by (apply filter_In; split; [apply in_seq; lia|exact Fp]). destruct (filter f (seq 0 n)); [destruct I|cbn; lia].
Qed.

Lemma how_many_le : forall n f g, (forall p, f p = true -> g p = true) -> how_many n f <= how_many n g.
Proof. intros n f g H. unfold how_many. apply Nat2Z.inj_le. induction (seq 0 n) as [|p l IH]; [reflexivity|]. cbn. destruct (f p) eqn:E; [rewrite (H p E); cbn; lia|]. destruct (g p); cbn; lia. Qed.

Lemma profile_main : forall d name sv mask n, let w := steps sv in let hh := selected mask (households sv) in let ds := selected mask (days sv) in
  let o := selected mask (occ sv) in let a := selected mask (act sv) in let prim := selected mask (primary sv) in let sec := selected mask (secondary sv) in
  sized n w o -> sized n w a -> sized n w prim -> sized n w sec -> (0 < n)%nat -> (0 < w)%nat -> length hh = n -> length ds = n ->
  (forall p i x, diary a p i x -> x = 0 \/ x = 1) -> (forall h day k, counts n (belongs hh ds h day) k -> k <= 9) ->
  (forall p i c, diary prim p i c -> meaning d c <> None) -> (forall p i c, diary sec p i c -> meaning d c <> None) ->
  exists prof, activity_profile d name sv mask = Ok prof /\ length prof = w /\
    forall i row, at_ prof i row -> length row = 6%nat /\ at_ row 0 0%Q /\
      forall k q, (0 < k)%nat -> at_ row k q -> exists having doing,
        household_list (fun h day => (exists p, belongs hh ds h day p) /\ exists home awake, Z.of_nat k = Z.min home awake /\
           counts n (fun p => belongs hh ds h day p /\ diary o p i true) home /\ counts n (fun p => belongs hh ds h day p /\ diary a p i 1) awake) having /\
        household_list (fun h day => In (h, day) having /\ exists p c c', belongs hh ds h day p /\ diary prim p i c /\ diary sec p i c' /\ (meaning d c = Some name \/ meaning d c' = Some name)) doing /\
        (having = [] -> q == 0)%Q /\ (having <> [] -> q == q_of (length doing) / q_of (length having))%Q /\ (0 <= q <= 1)%Q.
Proof.
  intros d name sv mask n w hh ds o a prim sec So Sa Sp Ss Hn Hw Lh Ld Ha H9 Kp Ks. unfold activity_profile. rewrite !selected_compress. fold hh ds prim sec.
  destruct (convert_read d prim (sized_some _ _ _ _ Sp Hn Hw) Kp) as (st1 & lab1 & E1 & R1).
  destruct (convert_read d sec (sized_some _ _ _ _ Ss Hn Hw) Ks) as (st2 & lab2 & E2 & R2).
  set (g := fun c => match meaning d c with Some s => s | None => ""%string end) in *.
  rewrite E1. cbn [bind]. rewrite E2. cbn [bind]. rewrite R1. cbn [bind]. rewrite R2. cbn [bind].
  destruct (four_main sv mask n So Sa Lh Ld Ha) as (g4 & keys & E4 & S4 & K4 & M4 & V4). fold w hh ds o a in E4, S4, K4, M4, V4.
  fold w. rewrite <- (selected_compress _ mask (four_states sv)). rewrite E4. cbn [bind].
  set (T := cell2 (performs name) (map (map g) prim) (map (map g) sec)).
  assert (ST : sized n w T) by (apply sized_cell2; apply sized_map; assumption).
  destruct (group_main n w T hh ds ST Lh Ld) as (gd & keys' & Ed & Sd & Kd & Md & Vd). rewrite Ed. cbn [bind].
  assert (keys' = keys). { apply sorted_keys_eq; auto. intros [dd h]. rewrite Md, M4. reflexivity. } subst keys'.
  set (home := fun x : Z * Z => fun i => hh_home o hh ds (snd x) (fst x) i). set (awake := fun x : Z * Z => fun i => hh_awake a hh ds (snd x) (fst x) i).
  assert (Bd : forall x i, 0 <= home x i /\ 0 <= awake x i <= 9).
  { intros [dd h] i. unfold home, awake, hh_home, hh_awake. cbn [fst snd]. rewrite (proj1 So), (proj1 Sa). split; [unfold how_many; lia|]. split; [unfold how_many; lia|].
    eapply Z.le_trans; [apply (how_many_le n _ (member hh ds h dd)); intros p Hp; apply andb_true_iff in Hp; apply Hp|]. apply (H9 h dd). apply counts_filter. intros p _. apply member_belongs. }
  assert (Act : forall x i, active_occupants (10 * home x i + awake x i) = Z.min (home x i) (awake x i)).
  { intros x i. destruct (Bd x i). unfold active_occupants. rewrite Z.add_comm, Z.mul_comm. rewrite Z.mod_add, Z.div_add by lia. rewrite Z.mod_small, Z.div_small by lia. lia. }
  set (does := fun x i p => member hh ds (snd x) (fst x) p && (String.eqb (g (cell 0 prim p i)) name || String.eqb (g (cell 0 sec p i)) name)).
  assert (Doing : forall i x, (i < w)%nat -> sum_over (member hh ds (snd x) (fst x)) T i = how_many n (does x i)).
  { intros i x Hi. rewrite (sum_over_ext _ _ _ (fun p => bool_Z (String.eqb (g (cell 0 prim p i)) name || String.eqb (g (cell 0 sec p i)) name))).
    - rewrite total_bool. rewrite (proj1 ST). reflexivity.
    - intros p Hp _. rewrite (proj1 ST) in Hp. destruct (sized_diary _ _ _ _ p i Sp Hp Hi) as (c & Hc). destruct (sized_diary _ _ _ _ p i Ss Hp Hi) as (c' & Hc').
      assert (D : diary T p i (performs name (g c) (g c'))). { apply diary_cell2. exists (g c), (g c'). repeat split; apply diary_map; eauto. }
      rewrite (cell_diary _ 0 _ _ _ _ Hc), (cell_diary _ 0 _ _ _ _ Hc'). destruct D as (r & Hr & Hx). rewrite (nth_error_nth _ _ _ Hr). apply (nth_error_nth _ _ _ Hx). }
  set (entry := fun i nn => profile_entry (Z.of_nat nn) (map (fun x => sum_over (member hh ds (snd x) (fst x)) T i) keys) (map (fun x => Z.min (home x i) (awake x i)) keys)).
  assert (Em : mapM (fun i => bind (mapM (fun r => vget r i) gd) (fun dcol => bind (mapM (fun r => vget r i) (map (map active_occupants) g4)) (fun acol =>
     Ok (0%Q :: map (fun n => profile_entry (Z.of_nat n) dcol acol) (seq 1 5))))) (seq 0 w) = Ok (map (fun i => 0%Q :: map (entry i) (seq 1 5)) (seq 0 w))).
  { apply mapM_map_total. intros i Hi. apply in_seq in Hi. rewrite (col_map i (fun x => sum_over (member hh ds (snd x) (fst x)) T i) keys gd); [|apply Sd|intros k [dd h] Hk; apply Vd; [exact Hk|lia]]. cbn [bind].
    rewrite (col_map i (fun x => Z.min (home x i) (awake x i)) keys (map (map active_occupants) g4)); [reflexivity|rewrite map_length; apply S4|]. intros k [dd h] Hk. apply diary_map. eexists. split; [apply V4; [exact Hk|lia]|]. symmetry. apply (Act (dd, h) i). }
  rewrite Em. eexists. split; [reflexivity|]. split; [rewrite map_length; apply seq_length|].
  intros i row Hrow. apply at_map in Hrow. destruct Hrow as (i' & Hi' & ->).
  assert (Hi : i' = i /\ (i < w)%nat). { unfold at_ in Hi'. assert (L : (i < w)%nat) by (rewrite <- (seq_length w 0); apply nth_error_Some; congruence). rewrite (nth_error_nth' _ 0%nat) in Hi' by (rewrite seq_length; exact L). rewrite seq_nth in Hi' by exact L. split; [|exact L]. injection Hi' as <-. lia. }
  destruct Hi as (-> & Hi). split; [reflexivity|]. split; [reflexivity|]. intros k q Hk Hq.
  assert (Eq : q = entry i k). { destruct k as [|k]; [lia|]. unfold at_ in Hq. cbn [nth_error] in Hq. change (at_ (map (entry i) (seq 1 5)) k q) in Hq. apply at_map in Hq. destruct Hq as (x & Hx & ->). f_equal. unfold at_ in Hx. assert (L : (k < 5)%nat) by (rewrite <- (seq_length 5 1); apply nth_error_Some; congruence). rewrite (nth_error_nth' _ 0%nat) in Hx by exact L. rewrite seq_nth in Hx by exact L. injection Hx as <-. reflexivity. }
  subst q. set (swap := fun x : Z * Z => (snd x, fst x)).
  set (hv := filter (fun x => Z.of_nat k =? Z.min (home x i) (awake x i)) keys). set (dg := filter (fun x => (0 <? how_many n (does x i)) && (Z.min (home x i) (awake x i) =? Z.of_nat k)) keys).
  assert (Nk : NoDup keys) by (apply keys_nodup; exact K4).
  assert (Ns : forall l, NoDup l -> NoDup (map swap l)) by (intros l Nl; apply nodup_map_in; [|exact Nl]; intros [x1 x2] [y1 y2] _ _ [= -> ->]; reflexivity).
  assert (Isw : forall l h day, In (h, day) (map swap l) <-> In (day, h) l). { intros l h day. rewrite in_map_iff. split; [intros ([x1 x2] & [= -> ->] & H); exact H|intro H; exists (day, h); auto]. }
  assert (Ch : forall x, counts n (fun p => belongs hh ds (snd x) (fst x) p /\ diary o p i true) (home x i)).
  { intro x. unfold home, hh_home. rewrite (proj1 So). apply counts_filter. intros p Hp. rewrite andb_true_iff, member_belongs. destruct (sized_diary _ _ _ _ p i So Hp Hi) as (b & Hb). rewrite (cell_diary _ false _ _ _ _ Hb). split; intros (B & V); (split; [exact B|]); [rewrite <- V; exact Hb|eapply diary_fun; eauto]. }
  assert (Ca : forall x, counts n (fun p => belongs hh ds (snd x) (fst x) p /\ diary a p i 1) (awake x i)).
  { intro x. unfold awake, hh_awake. rewrite (proj1 Sa). apply counts_filter. intros p Hp. rewrite andb_true_iff, member_belongs, Z.eqb_eq. destruct (sized_diary _ _ _ _ p i Sa Hp Hi) as (b & Hb). rewrite (cell_diary _ 0 _ _ _ _ Hb). split; intros (B & V); (split; [exact B|]); [rewrite <- V; exact Hb|eapply diary_fun; eauto]. }
  exists (map swap hv), (map swap dg). split; [split; [apply Ns, NoDup_filter, Nk|]|split; [split; [apply Ns, NoDup_filter, Nk|]|]].
  - intros h day. rewrite Isw. unfold hv. rewrite filter_In, M4, Z.eqb_eq. split.
    + intros ((p & P1 & P2) & E). split; [exists p; split; assumption|]. exists (home (day, h) i), (awake (day, h) i). split; [exact E|]. split; [apply (Ch (day, h))|apply (Ca (day, h))].
    + intros ((p & P1 & P2) & x & y & E & C1 & C2). split; [eauto|]. rewrite E. rewrite (counts_unique _ _ _ _ C1 (Ch (day, h))), (counts_unique _ _ _ _ C2 (Ca (day, h))). reflexivity.
  - intros h day. rewrite !Isw. unfold hv, dg. rewrite !filter_In, andb_true_iff, Z.ltb_lt, how_many_pos, !Z.eqb_eq. unfold does. cbn [fst snd]. split.
    + intros (Ik & (p & Hp & Hd) & E). split; [split; [exact Ik|congruence]|]. apply andb_true_iff in Hd. destruct Hd as (B & Hd). apply member_belongs in B. destruct (sized_diary _ _ _ _ p i Sp Hp Hi) as (c & Hc). destruct (sized_diary _ _ _ _ p i Ss Hp Hi) as (c' & Hc').
      rewrite (cell_diary _ 0 _ _ _ _ Hc), (cell_diary _ 0 _ _ _ _ Hc') in Hd. exists p, c, c'. split; [exact B|]. split; [exact Hc|]. split; [exact Hc'|]. specialize (Kp p i c Hc). specialize (Ks p i c' Hc'). unfold g in Hd. apply orb_true_iff in Hd. rewrite !String.eqb_eq in Hd. destruct (meaning d c), (meaning d c'); try congruence. destruct Hd as [->| ->]; auto.
    + intros ((Ik & E) & p & c & c' & B & Hc & Hc' & M). split; [exact Ik|]. split; [|congruence]. exists p. split; [apply (diary_sized _ _ _ _ _ _ _ Sp Hc)|]. rewrite (cell_diary _ 0 _ _ _ _ Hc), (cell_diary _ 0 _ _ _ _ Hc'). apply andb_true_iff. split; [apply member_belongs; exact B|]. apply orb_true_iff. rewrite !String.eqb_eq. unfold g. destruct M as [-> | ->]; auto.
  - rewrite !map_length. assert (Ee : entry i k = nan_to_zero (nan_div (q_nat (length dg)) (q_nat (length hv)))).
    { unfold entry, profile_entry. rewrite map_map, count_true_map. rewrite map2_map_map, count_true_map. fold hv. do 3 f_equal. unfold dg. f_equal. apply filter_ext_in. intros x Hx. rewrite Doing by exact Hi. reflexivity. }
    assert (Le : (length dg <= length hv)%nat). { unfold dg, hv. clear. induction keys as [|x l IH]; [reflexivity|]. cbn [filter]. rewrite (Z.eqb_sym (Z.of_nat k)). destruct (Z.min (home x i) (awake x i) =? Z.of_nat k); [destruct (0 <? how_many n (does x i)); cbn; lia|]. rewrite andb_false_r. exact IH. }
    rewrite Ee. unfold nan_div. destruct (Qeq_bool (q_nat (length hv)) 0) eqn:Ez.
    + apply Qeq_bool_iff in Ez. cbn [nan_to_zero]. assert (Z0 : hv = []). { destruct hv; [reflexivity|]. exfalso. assert (0 < q_nat (length (p :: hv)))%Q by (apply q_nat_pos; cbn; lia). lra. } rewrite Z0. split; [intros _; reflexivity|]. split; [intro X; destruct X; reflexivity|]. lra.
    + cbn [nan_to_zero]. assert (Nz : ~ (q_nat (length hv) == 0)%Q) by (intro X; apply Qeq_bool_iff in X; congruence). assert (Pz : (0 < q_nat (length hv))%Q) by (pose proof (q_nat_nn (length hv)); destruct (Qlt_le_dec 0 (q_nat (length hv))); [assumption|exfalso; apply Nz; lra]).
      split; [|split; [intros _; reflexivity|]].
      * intro X. apply (f_equal (@length _)) in X. rewrite map_length in X. exfalso. apply Nz. rewrite X. reflexivity.
      * split; [apply Qle_shift_div_l; [exact Pz|]; pose proof (q_nat_nn (length dg)); lra|]. apply Qle_shift_div_r; [exact Pz|]. rewrite Qmult_1_l. unfold q_nat. rewrite <- Zle_Qle. lia.
Qed.

(** Lists that end before a diary in which something changes are refused. *)
Lemma starts_short : forall n w states hh ds i p new old, sized n w states -> (0 < w)%nat -> changes w states i p new old ->
  (length hh <= p)%nat \/ (length ds <= p)%nat -> parse_daily_activity_starts w states hh ds = Err IndexError.
Proof.
  intros n w states hh ds i p new old HS Hw Ch S. unfold parse_daily_activity_starts.
  destruct (@transitions_exact string String.eqb String.eqb_eq (mkTable w states)) as (tr & E & Htr); [intros q r Hr; apply HS; eapply at_in; eauto|exact Hw|].
  rewrite E. cbn [bind]. unfold exact_lines in Htr. cbn [width rows] in Htr. destruct Htr as (_ & _ & _ & Ex & _).
  apply Ex in Ch. destruct Ch as (k & _ & Hk & _). apply at_in in Hk.
  assert (F : forall l : list Z, (length l <= p)%nat -> take_at l (tr_persons tr) = Err IndexError).
  { intros l L. unfold take_at. revert Hk. generalize (tr_persons tr) as idx. induction idx as [|j idx IH]; intro I; [destruct I|]. cbn [mapM].
    destruct (nth_error l j) as [x|] eqn:Ej; [|reflexivity]. cbn [bind]. destruct I as [->|I]; [|rewrite (IH I); reflexivity].
    apply nth_error_None in L. congruence. }
  destruct (take_at hh (tr_persons tr)) as [h|e] eqn:E3; cbn [bind].
  - destruct S as [S|S]; [rewrite (F _ S) in E3; discriminate|]. rewrite (F _ S). reflexivity.
  - f_equal. clear - E3. unfold take_at in E3. revert e E3. generalize (tr_persons tr) as idx. induction idx as [|j idx IH]; intros e E; [discriminate|]. cbn [mapM] in E.
    destruct (nth_error hh j); [|cbn [bind] in E; congruence]. cbn [bind] in E.
    destruct (mapM _ idx); [discriminate|]. cbn [bind] in E. injection E as <-. apply IH. reflexivity.
Qed.
