(** * Proofs about the households of the German survey. *)

From Coq Require Import String List ZArith QArith Bool Arith Lia.
From Verif Require Import Prelude PreludeFacts SpecBase SpecBaseFacts Parse_Model Parse_Spec Parse_Proofs Parse_DurProofs Parse_TpmProofs Appliance_Model StateMetric_Model
  Matrix_Proofs Activity_LabelProofs GTou_Model GTou_Spec GTou_Proofs GTou_LabelProofs.
Import ListNotations.
Local Open Scope Z_scope.

Lemma filter_map : forall A B (f : A -> B) (g : B -> bool) l, filter g (map f l) = map f (filter (fun x => g (f x)) l).
Proof. induction l as [|x l IH]; [reflexivity|]. cbn. destruct (g (f x)); cbn; rewrite IH; reflexivity. Qed.

Lemma compress_seq : forall A (d : A) mask rows (f : nat -> bool), length mask = length rows -> (forall p b, at_ mask p b -> f p = b) ->
  compress mask rows = map (fun p => nth p rows d) (filter f (seq 0 (length rows))).
Proof.
  induction mask as [|b m IH]; intros [|r rows] f L H; try discriminate; [reflexivity|]. cbn [compress length seq filter].
  rewrite (H 0%nat b eq_refl). assert (X : compress m rows = map (fun p => nth p (r :: rows) d) (filter f (seq 1 (length rows)))).
  { rewrite (IH rows (fun p => f (S p))); [|cbn in L; lia|intros p b' Hb; apply (H (S p)); exact Hb]. rewrite <- seq_shift, filter_map, map_map. reflexivity. }
  destruct b; cbn [map]; rewrite X; reflexivity.
Qed.

Lemma sum_rows_fold : forall w i, (i < w)%nat -> forall rs acc, length acc = w -> (forall r, In r rs -> length r = w) ->
  length (fold_left (map2 Z.add) rs acc) = w /\ nth i (fold_left (map2 Z.add) rs acc) 0 = nth i acc 0 + total_Z (map (fun r => nth i r 0) rs).
Proof.
  intros w i Hi. induction rs as [|r rs IH]; intros acc La Hr; cbn [fold_left map]; [split; [exact La|cbn; lia]|].
  assert (Lr : length r = w) by (apply Hr; left; reflexivity).
  destruct (IH (map2 Z.add acc r)) as (L & E); [rewrite map2_length; lia|intros; apply Hr; right; auto|]. split; [exact L|]. rewrite E.
  destruct (lt_at _ acc i ltac:(lia)) as (a & Ha). destruct (lt_at _ r i ltac:(lia)) as (b & Hb).
  assert (At : at_ (map2 Z.add acc r) i (a + b)) by (apply at_map2; eauto).
  rewrite (nth_error_nth _ _ 0 At), (nth_error_nth _ _ 0 Ha). unfold total_Z. cbn [fold_right map]. rewrite (nth_error_nth _ _ 0 Hb). lia.
Qed.

Lemma sum_rows_length : forall w rs, (forall r, In r rs -> length r = w) -> length (sum_rows w rs) = w.
Proof.
  intros w rs. unfold sum_rows. assert (L : length (repeat 0 w) = w) by apply repeat_length. revert L. generalize (repeat 0 w). induction rs as [|r rs IH]; intros acc L H; [exact L|]. cbn [fold_left].
  apply IH; [rewrite map2_length, (H r (or_introl eq_refl)); lia|intros; apply H; right; auto].
Qed.

Lemma nth_at : forall (l : list Z) i, (i < length l)%nat -> at_ l i (nth i l 0).
Proof. intros l i H. destruct (lt_at _ l i H) as (x & Hx). rewrite (nth_error_nth _ _ 0 Hx). exact Hx. Qed.

Lemma sum_rows_at : forall w rs i, (i < w)%nat -> (forall r, In r rs -> length r = w) -> at_ (sum_rows w rs) i (total_Z (map (fun r => nth i r 0) rs)).
Proof.
  intros w rs i Hi H. destruct (sum_rows_fold w i Hi rs (repeat 0 w) (repeat_length _ _) H) as (L & E). fold (sum_rows w rs) in L, E.
  assert (Z0 : nth i (repeat 0 w) 0 = 0) by apply nth_repeat. rewrite Z0 in E. cbn [Z.add] in E. rewrite <- E. apply nth_at. rewrite L. exact Hi.
Qed.

Lemma combine_at : forall A B (l : list A) (m : list B) i x y, at_ (combine l m) i (x, y) <-> at_ l i x /\ at_ m i y.
Proof.
  unfold at_. induction l as [|a l IH]; intros [|b m] [|i] x y; cbn; try (split; [discriminate|intros (H1 & H2); discriminate]).
  - split; [intros [= -> ->]; auto|intros ([= ->] & [= ->]); reflexivity].
  - apply IH.
Qed.

Lemma in_compress : forall A m (l : list A) x, In x (compress m l) -> In x l.
Proof. induction m as [|b m IH]; intros [|y l] x H; try destruct H. cbn in H. destruct b; [destruct H; [left|right]; auto|right; auto]. Qed.

(** ** Sums over the members *)

Definition key_sorted (a b : Z * Z) : Prop := fst a < fst b \/ fst a = fst b /\ snd a < snd b.

Lemma group_main : forall n w rows hh ds, sized n w rows -> length hh = n -> length ds = n ->
  exists g keys, group_in_household_activity (mkTable w rows) hh ds = Ok g /\ sized (length keys) w g /\
    (forall k k' a b, (k < k')%nat -> at_ keys k a -> at_ keys k' b -> key_sorted a b) /\
    (forall d h, In (d, h) keys <-> exists p, at_ ds p d /\ at_ hh p h) /\
    forall k d h i, at_ keys k (d, h) -> (i < w)%nat -> diary g k i (sum_over (member hh ds h d) rows i).
Proof.
  intros n w rows hh ds (L & S) Lh Ld. unfold group_in_household_activity. cbn [Parse_Model.rows width]. rewrite L, Lh, Ld, !Nat.eqb_refl. cbn [andb].
  assert (O : total_order cmp_ints) by (apply pair_order; exact Z_order).
  set (keys := household_days hh ds). eexists. exists keys. split; [reflexivity|].
  assert (Sel : forall m r, In r (compress m rows) -> length r = w) by (intros m r Hr; apply S; eapply in_compress; eauto).
  split; [|split; [|split]].
  - split; [apply map_length|]. intros r Hr. apply in_map_iff in Hr. destruct Hr as (dh & <- & _). apply sum_rows_length. intros r Hr. eapply Sel; eauto.
  - intros k k' a b Hk Ha Hb. pose proof (sorted_nth (uniq_sorted O (combine ds hh)) Hk Ha Hb) as X. clear - X. unfold cmp_ints, cmp_pair in X. unfold key_sorted.
    destruct a as [a1 a2], b as [b1 b2]. cbn [fst snd] in *. destruct (Z.compare_spec a1 b1); [right|left; assumption|discriminate]. split; [assumption|]. exact X.
  - intros d h. unfold keys, household_days. rewrite (uniq_in O). split.
    + intro H. apply in_at in H. destruct H as (p & H). exists p. apply combine_at. exact H.
    + intros (p & H). apply combine_at in H. eapply at_in; eauto.
  - intros k d h i Hk Hi. exists (sum_rows w (compress (map2 (fun h' d' => (h' =? h) && (d' =? d)) hh ds) rows)). split; [apply at_map; exists (d, h); auto|].
    assert (E : total_Z (map (fun r => nth i r 0) (compress (map2 (fun h' d' => (h' =? h) && (d' =? d)) hh ds) rows)) = sum_over (member hh ds h d) rows i).
    { unfold sum_over. rewrite (compress_seq _ [] _ rows (member hh ds h d)).
      - rewrite map_map. reflexivity.
      - rewrite map2_length. lia.
      - intros p b Hb. apply at_map2 in Hb. destruct Hb as (x & y & Hx & Hy & ->). unfold member. unfold at_ in Hx, Hy. rewrite Hx, Hy. reflexivity. }
    rewrite <- E. apply sum_rows_at; [exact Hi|]. intros r Hr. eapply Sel; eauto.
Qed.

Lemma group_length_err : forall w rows hh ds, (length hh <> length rows \/ length ds <> length rows)%nat -> group_in_household_activity (mkTable w rows) hh ds = Err AssertionError.
Proof.
  intros w rows hh ds H. unfold group_in_household_activity. cbn [Parse_Model.rows]. destruct (Nat.eqb_spec (length rows) (length hh)); destruct (Nat.eqb_spec (length rows) (length ds)); cbn [andb]; try reflexivity. lia.
Qed.

(** ** Sums of tests *)

Lemma total_Z_map_add : forall A (f g : A -> Z) l, total_Z (map (fun x => f x + g x) l) = total_Z (map f l) + total_Z (map g l).
Proof. unfold total_Z. induction l as [|x l IH]; cbn; [reflexivity|]. rewrite IH. lia. Qed.

Lemma total_Z_scale : forall A (f : A -> Z) c l, total_Z (map (fun x => c * f x) l) = c * total_Z (map f l).
Proof. unfold total_Z. induction l as [|x l IH]; cbn; [lia|]. rewrite IH. lia. Qed.

Lemma total_bool : forall A (f g : A -> bool) l, total_Z (map (fun x => bool_Z (f x)) (filter g l)) = Z.of_nat (length (filter (fun x => g x && f x) l)).
Proof.
  unfold total_Z. induction l as [|x l IH]; cbn; [reflexivity|]. destruct (g x); cbn [andb]; [|exact IH]. cbn [map fold_right]. rewrite IH. destruct (f x); cbn [length bool_Z]; lia.
Qed.

(** The boolean entry of a table. *)
Definition cell {A} (d : A) (t : list (list A)) (p i : nat) : A := nth i (nth p t []) d.

Lemma cell_diary : forall A (d : A) t p i x, diary t p i x -> cell d t p i = x.
Proof. intros A d t p i x (r & Hr & Hx). unfold cell. rewrite (nth_error_nth _ _ [] Hr). apply (nth_error_nth _ _ d Hx). Qed.

Lemma sum_over_ext : forall f t i (v : nat -> Z), (forall p, (p < length t)%nat -> f p = true -> nth i (nth p t []) 0 = v p) ->
  sum_over f t i = total_Z (map v (filter f (seq 0 (length t)))).
Proof.
  intros f t i v H. unfold sum_over. f_equal. apply map_ext_in. intros p Hp. apply filter_In in Hp. destruct Hp as (Hp & E). apply in_seq in Hp. apply H; [lia|exact E].
Qed.

(** ** All the members of all the households *)

Lemma keys_nodup : forall keys : list (Z * Z), (forall k k' a b, (k < k')%nat -> at_ keys k a -> at_ keys k' b -> key_sorted a b) -> NoDup keys.
Proof.
  intros keys H. apply NoDup_nth_error. intros i j Hi E. destruct (nth_error keys i) as [a|] eqn:Ea; [|apply nth_error_None in Ea; lia]. symmetry in E.
  destruct (Nat.lt_trichotomy i j) as [X|[X|X]]; [|exact X|]; exfalso; [pose proof (H _ _ _ _ X Ea E)|pose proof (H _ _ _ _ X E Ea)]; unfold key_sorted in *; lia.
Qed.

Lemma partition_sum : forall (v : nat -> Z) (key : nat -> Z * Z) (eqk : Z * Z -> Z * Z -> bool), (forall a b, eqk a b = true <-> a = b) ->
  forall L keys, NoDup keys -> (forall p, In p L -> In (key p) keys) ->
  total_Z (map (fun k => total_Z (map v (filter (fun p => eqk (key p) k) L))) keys) = total_Z (map v L).
Proof.
  intros v key eqk Heq. induction L as [|p L IH]; intros keys N C.
  - cbn. clear. unfold total_Z. induction keys; cbn; lia.
  - transitivity (v p + total_Z (map v L)); [|reflexivity]. rewrite <- (IH keys N) by (intros; apply C; right; auto).
    assert (E : forall k, total_Z (map v (filter (fun p => eqk (key p) k) (p :: L))) = (if eqk (key p) k then v p else 0) + total_Z (map v (filter (fun p => eqk (key p) k) L))).
    { intro k. cbn [filter]. destruct (eqk (key p) k); unfold total_Z; cbn [map fold_right]; lia. }
    rewrite (map_ext _ _ E). rewrite total_Z_map_add. f_equal.
    assert (I : In (key p) keys) by (apply C; left; reflexivity). clear - N I Heq. unfold total_Z. induction keys as [|k keys IH]; [destruct I|]. inversion N; subst. cbn [map fold_right].
    destruct I as [->|I].
    + rewrite (proj2 (Heq _ _) eq_refl). enough (X : fold_right Z.add 0 (map (fun k => if eqk (key p) k then v p else 0) keys) = 0) by lia.
      clear - H1 Heq. induction keys as [|k keys IH]; [reflexivity|]. cbn [map fold_right]. destruct (eqk (key p) k) eqn:E; [apply Heq in E; exfalso; apply H1; left; auto|]. rewrite IH; [reflexivity|]. intro; apply H1; right; auto.
    + destruct (eqk (key p) k) eqn:E; [apply Heq in E; subst k; contradiction|]. rewrite (IH H2 I). lia.
Qed.

Lemma active_main : forall sv mask n, let w := steps sv in let hh := selected mask (households sv) in let ds := selected mask (days sv) in
  let o := selected mask (occ sv) in let a := selected mask (act sv) in sized n w o -> sized n w a -> length hh = n -> length ds = n ->
  (forall p i x, diary a p i x -> x = 0 \/ x = 1) ->
  exists r, get_active_occupancy sv mask = Ok r /\ length r = w /\
    forall i x, at_ r i x -> x = how_many n (fun p => cell false o p i && (cell 0 a p i =? 1)).
Proof.
  intros sv mask n w hh ds o a So Sa Lh Ld Ha.
  assert (Cm : forall A B C (f : A -> B -> C) m x y, compress m (map2 f x y) = map2 f (compress m x) (compress m y)).
  { induction m as [|b m IH]; intros [|u x] [|v y]; try reflexivity; cbn; destruct b; rewrite ?IH; try reflexivity; destruct (compress m x); reflexivity. }
  unfold get_active_occupancy. unfold cell2 at 1. rewrite Cm, !selected_compress. fold hh ds o a w. fold (cell2 (fun o a => Z.land (bool_Z o) a) o a).
  set (t := cell2 (fun o a => Z.land (bool_Z o) a) o a). assert (St : sized n w t) by (apply sized_cell2; assumption).
  destruct (group_main n w t hh ds St Lh Ld) as (g & keys & E & Sg & Ks & Kc & V). rewrite E. cbn [bind]. eexists. split; [reflexivity|].
  split; [apply sum_rows_length; apply Sg|]. intros i x Hx.
  assert (Hi : (i < w)%nat) by (rewrite <- (sum_rows_length w g (proj2 Sg)); apply (at_lt _ _ _ _ Hx)).
  pose proof (sum_rows_at w g i Hi (proj2 Sg)) as Hx'. assert (x = total_Z (map (fun r => nth i r 0) g)) as -> by (unfold at_ in *; congruence). clear Hx Hx'.
  set (key := fun p => (nth p ds 0, nth p hh 0)). set (eqk := fun x y : Z * Z => (snd x =? snd y) && (fst x =? fst y)).
  assert (Heq : forall x y, eqk x y = true <-> x = y). { intros [x1 x2] [y1 y2]. unfold eqk. cbn. rewrite andb_true_iff, !Z.eqb_eq. split; [intros (-> & ->); reflexivity|intros [= -> ->]; auto]. }
  assert (Eg : map (fun r => nth i r 0) g = map (fun k => total_Z (map (fun p => nth i (nth p t []) 0) (filter (fun p => eqk (key p) k) (seq 0 n)))) keys).
  { apply nth_error_ext'. intro k. rewrite !nth_error_map. destruct (nth_error keys k) as [[d h]|] eqn:Ek; cbn [option_map].
    - destruct (V k d h i Ek Hi) as (r & Hr & Hv). unfold at_ in Hr. rewrite Hr. cbn [option_map]. f_equal. rewrite (nth_error_nth _ _ 0 Hv). unfold sum_over. rewrite (proj1 St).
      f_equal. f_equal. apply filter_ext_in. intros p Hp. apply in_seq in Hp. unfold member, eqk, key. cbn [fst snd].
      destruct (lt_at _ hh p ltac:(lia)) as (h' & Hh'). destruct (lt_at _ ds p ltac:(lia)) as (d' & Hd'). rewrite (nth_error_nth _ _ 0 Hh'), (nth_error_nth _ _ 0 Hd'). unfold at_ in *. rewrite Hh', Hd'. reflexivity.
    - replace (nth_error g k) with (@None (list Z)); [reflexivity|]. symmetry. apply nth_error_None. rewrite (proj1 Sg). apply nth_error_None. exact Ek. }
  rewrite Eg. rewrite (partition_sum _ key eqk Heq); [|apply keys_nodup; exact Ks|].
  2:{ intros p Hp. apply in_seq in Hp. apply Kc. exists p. split; apply nth_at; lia. }
  unfold how_many. rewrite <- (map_ext_in (fun p => bool_Z (cell false o p i && (cell 0 a p i =? 1)))).
  - rewrite <- (total_bool _ (fun p => cell false o p i && (cell 0 a p i =? 1)) (fun _ => true)). f_equal. f_equal. clear. induction (seq 0 n) as [|x l IH]; [reflexivity|]. cbn. rewrite <- IH. reflexivity.
  - intros p Hp. apply in_seq in Hp. destruct (sized_diary _ _ _ _ p i So ltac:(lia) Hi) as (b & Hb). destruct (sized_diary _ _ _ _ p i Sa ltac:(lia) Hi) as (c & Hc).
    assert (Ht : diary t p i (Z.land (bool_Z b) c)) by (apply diary_cell2; eauto). rewrite (cell_diary _ 0 _ _ _ _ Hc), (cell_diary _ false _ _ _ _ Hb).
    change (nth i (nth p t []) 0) with (cell 0 t p i). rewrite (cell_diary _ 0 _ _ _ _ Ht). destruct (Ha p i c Hc) as [-> | ->]; destruct b; reflexivity.
Qed.

(** ** Four states of a household *)

Lemma compress_map2 : forall A B C (f : A -> B -> C) m x y, compress m (map2 f x y) = map2 f (compress m x) (compress m y).
Proof. induction m as [|b m IH]; intros [|u x] [|v y]; try reflexivity; cbn; destruct b; rewrite ?IH; try reflexivity; destruct (compress m x); reflexivity. Qed.

Definition hh_home (o : list (list bool)) (hh ds : list Z) (h d : Z) (i : nat) : Z := how_many (length o) (fun p => member hh ds h d p && cell false o p i).
Definition hh_awake (a : list (list Z)) (hh ds : list Z) (h d : Z) (i : nat) : Z := how_many (length a) (fun p => member hh ds h d p && (cell 0 a p i =? 1)).

Lemma four_main : forall sv mask n, let w := steps sv in let hh := selected mask (households sv) in let ds := selected mask (days sv) in
  let o := selected mask (occ sv) in let a := selected mask (act sv) in sized n w o -> sized n w a -> length hh = n -> length ds = n ->
  (forall p i x, diary a p i x -> x = 0 \/ x = 1) ->
  exists g keys, group_in_household_4states (mkTable w (compress mask (four_states sv))) hh ds = Ok g /\ sized (length keys) w g /\
    (forall k k' a b, (k < k')%nat -> at_ keys k a -> at_ keys k' b -> key_sorted a b) /\
    (forall d h, In (d, h) keys <-> exists p, at_ ds p d /\ at_ hh p h) /\
    forall k d h i, at_ keys k (d, h) -> (i < w)%nat -> diary g k i (10 * hh_home o hh ds h d i + hh_awake a hh ds h d i).
Proof.
  intros sv mask n w hh ds o a So Sa Lh Ld Ha.
  unfold four_states, cell2. rewrite compress_map2, !selected_compress. fold o a. fold (cell2 (fun o a => 10 * bool_Z o + a) o a).
  set (t := cell2 (fun o a => 10 * bool_Z o + a) o a). assert (St : sized n w t) by (apply sized_cell2; assumption).
  destruct (group_main n w t hh ds St Lh Ld) as (g & keys & E & Sg & Ks & Kc & V). exists g, keys. split; [|split; [exact Sg|split; [exact Ks|split; [exact Kc|]]]].
  - unfold group_in_household_4states. cbn [rows]. replace (forallb (forallb is_4state) t) with true; [exact E|]. symmetry. apply forallb_forall. intros r Hr. apply forallb_forall. intros x Hx.
    destruct (proj1 (diary_in _ t x)) as (p & i & D); [eauto|]. apply diary_cell2 in D. destruct D as (b & c & _ & Hc & ->). destruct (Ha p i c Hc) as [-> | ->]; destruct b; reflexivity.
  - intros k d h i Hk Hi. pose proof (V k d h i Hk Hi) as D. rewrite (sum_over_ext _ _ _ (fun p => 10 * bool_Z (cell false o p i) + bool_Z (cell 0 a p i =? 1))) in D.
    + rewrite total_Z_map_add, total_Z_scale, !total_bool in D. unfold hh_home, hh_awake, how_many. rewrite (proj1 St) in D. rewrite (proj1 So), (proj1 Sa). exact D.
    + intros p Hp _. rewrite (proj1 St) in Hp. destruct (sized_diary _ _ _ _ p i So Hp Hi) as (b & Hb). destruct (sized_diary _ _ _ _ p i Sa Hp Hi) as (c & Hc).
      assert (Ht : diary t p i (10 * bool_Z b + c)) by (apply diary_cell2; eauto). rewrite (cell_diary _ 0 _ _ _ _ Hc), (cell_diary _ false _ _ _ _ Hb).
      change (nth i (nth p t []) 0) with (cell 0 t p i). rewrite (cell_diary _ 0 _ _ _ _ Ht). destruct (Ha p i c Hc) as [-> | ->]; destruct b; reflexivity.
Qed.
