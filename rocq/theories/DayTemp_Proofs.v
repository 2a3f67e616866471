(** * Proofs about the temperatures of a day. *)

From Coq Require Import List ZArith QArith Bool Arith Lia Lqa Field.
From Verif Require Import Prelude PreludeFacts SpecBase SpecBaseFacts DayTemp_Model DayTemp_Spec.
Import ListNotations.
Local Open Scope Q_scope.

(** ** Lists *)

Lemma nan_argmax_some : forall l y i, nan_argmax l = Some (y, i) ->
  nth_error l i = Some (Some y) /\ (forall j z, nth_error l j = Some (Some z) -> z <= y) /\
  (forall j z, nth_error l j = Some (Some z) -> (j < i)%nat -> z < y).
Proof.
  induction l as [|o l IH]; intros y i H; [discriminate|]. cbn [nan_argmax] in H.
  destruct o as [x|]; destruct (nan_argmax l) as [[u k]|] eqn:E.
  - destruct (IH u k eq_refl) as (A & B & C). destruct (Qle_bool u x) eqn:L; injection H as <- <-.
    + apply Qle_bool_iff in L. split; [reflexivity|]. split; [|intros; lia].
      intros [|j] z J; cbn in J; [injection J as ->; lra|]. pose proof (B j z J). lra.
    + assert (x < u) by (destruct (Qlt_le_dec x u); [assumption|]; apply Qle_bool_iff in q; congruence).
      split; [exact A|]. split; intros [|j] z J; cbn in J.
      * injection J as ->. lra.
      * exact (B j z J).
      * injection J as ->. intros _. lra.
      * intro P. apply (C j z J). lia.
  - injection H as <- <-. split; [reflexivity|]. split; [|intros; lia].
    intros [|j] z J; cbn in J; [injection J as ->; lra|]. exfalso. clear IH.
    revert j z J E. induction l as [|[w|] l IH]; intros j z J E; [destruct j; discriminate|cbn [nan_argmax] in E; destruct (nan_argmax l) as [[? ?]|]; [destruct (Qle_bool _ _)|]; discriminate|].
    cbn [nan_argmax] in E. destruct (nan_argmax l) as [[? ?]|]; [discriminate|]. destruct j; [discriminate|]. exact (IH j z J eq_refl).
  - destruct (IH u k eq_refl) as (A & B & C). injection H as <- <-. split; [exact A|]. split; intros [|j] z J; cbn in J; try discriminate.
    + exact (B j z J).
    + intro P. apply (C j z J). lia.
  - discriminate.
Qed.

Lemma nan_argmax_none : forall l, nan_argmax l = None -> forall j z, nth_error l j <> Some (Some z).
Proof.
  induction l as [|[w|] l IH]; intros E j z J.
  - destruct j; discriminate.
  - cbn [nan_argmax] in E. destruct (nan_argmax l) as [[? ?]|]; [destruct (Qle_bool _ _)|]; discriminate.
  - cbn [nan_argmax] in E. destruct (nan_argmax l) as [[? ?]|]; [discriminate|]. destruct j; [discriminate|]. exact (IH eq_refl j z J).
Qed.

Lemma map_pos_nth : forall A B (f : nat -> A -> B) l b i, nth_error (map_pos f b l) i = option_map (f (b + i)%nat) (nth_error l i).
Proof.
  induction l as [|x l IH]; intros b i; destruct i; cbn; try reflexivity.
  - rewrite Nat.add_0_r. reflexivity.
  - rewrite IH. replace (S b + i)%nat with (b + S i)%nat by lia. reflexivity.
Qed.

Lemma map_pos_length : forall A B (f : nat -> A -> B) l b, length (map_pos f b l) = length l.
Proof. induction l; intros; cbn; auto. Qed.

Lemma nth_error_skipn : forall A (l : list A) k i, nth_error (skipn k l) i = nth_error l (k + i).
Proof. induction l as [|a l IH]; intros [|k] i; cbn; auto. destruct i; reflexivity. Qed.

Lemma nth_error_firstn : forall A (l : list A) k i, (i < k)%nat -> nth_error (firstn k l) i = nth_error l i.
Proof. induction l as [|a l IH]; intros [|k] [|i] H; cbn; auto; try lia. apply IH. lia. Qed.

(** ** Light *)

Lemma lit_true : forall irr i, lit irr i <-> nth_error (map (Qltb 0) irr) i = Some true.
Proof.
  intros irr i. rewrite nth_error_map. unfold lit, at_. split.
  - intros (x & E & P). rewrite E. cbn. f_equal. apply Qltb_lt. exact P.
  - destruct (nth_error irr i) as [x|]; cbn; intro H; [|discriminate]. exists x. split; [reflexivity|]. apply Qltb_lt. congruence.
Qed.

Lemma first_light_true : forall irr i, first_light irr i <-> first_true (map (Qltb 0) irr) = Some i.
Proof.
  intros irr i. split.
  - intros (L & M). destruct (first_true (map (Qltb 0) irr)) as [k|] eqn:E.
    + apply first_true_some in E as (E & F). apply lit_true in E. pose proof (M k E).
      destruct (le_lt_dec k i); [f_equal; lia|]. apply lit_true in L. rewrite (F i) in L by assumption. discriminate.
    + exfalso. apply first_true_none in E. apply lit_true in L. apply nth_error_In in L. rewrite Forall_forall in E. apply E in L. discriminate.
  - intro E. apply first_true_some in E as (E & F). split; [apply lit_true; exact E|].
    intros j L. destruct (le_lt_dec i j); [assumption|]. apply lit_true in L. rewrite (F j) in L by assumption. discriminate.
Qed.

Lemma nth_error_rev : forall A (l : list A) i, (i < length l)%nat -> nth_error (rev l) i = nth_error l (length l - 1 - i).
Proof.
  intros A l i H. destruct (nth_error l (length l - 1 - i)) as [x|] eqn:E; [|apply nth_error_None in E; lia].
  apply nth_error_nth with (d := x) in E. rewrite <- E.
  rewrite (nth_error_nth' (rev l) x) by (rewrite rev_length; exact H). f_equal. rewrite rev_nth by exact H. f_equal. lia.
Qed.

Lemma last_light_true : forall irr i, last_light irr i ->
  exists r, first_true (rev (map (Qltb 0) irr)) = Some r /\ (length irr - 1 - r)%nat = i.
Proof.
  intros irr i (L & M). set (m := map (Qltb 0) irr).
  assert (LM : length m = length irr) by (unfold m; apply map_length).
  assert (LI : (i < length irr)%nat) by (destruct L as (x & E & _); exact (at_lt _ _ _ _ E)).
  destruct (first_true (rev m)) as [r|] eqn:E.
  - exists r. split; [reflexivity|]. apply first_true_some in E as (E & F).
    assert (R : (r < length m)%nat) by (rewrite <- rev_length; apply nth_error_Some; congruence).
    rewrite nth_error_rev, LM in E by exact R. apply lit_true in E. pose proof (M _ E).
    destruct (Nat.eq_dec (length irr - 1 - r) i); [assumption|].
    assert (G : nth_error (rev m) (length irr - 1 - i) = Some false) by (apply F; lia).
    rewrite nth_error_rev, LM in G by lia. replace (length irr - 1 - (length irr - 1 - i))%nat with i in G by lia.
    apply lit_true in L. unfold m in G. congruence.
  - exfalso. apply first_true_none in E. apply lit_true in L. apply nth_error_In in L. rewrite Forall_forall in E.
    assert (X : In true (rev m)) by (apply in_rev; rewrite rev_involutive; exact L). apply E in X. discriminate.
Qed.

Lemma light_sum : forall solar l, qsum (map (fun b : bool => if b then solar else 0) (map (Qltb 0) l)) == solar * total (map light l).
Proof.
  intros solar l. rewrite (total_qsum (map light l)). induction l as [|x l IH]; cbn [map qsum]; [ring|]. rewrite IH. unfold light at 2.
  destruct (Qltb 0 x) eqn:E; destruct (Qlt_le_dec 0 x) as [H|H].
  - ring.
  - apply Qltb_lt in E. lra.
  - assert (Qltb 0 x = true) by (apply Qltb_lt; exact H). congruence.
  - ring.
Qed.

Lemma light_nonneg : forall x, 0 <= light x.
Proof. intro x. unfold light. destruct (Qlt_le_dec 0 x); lra. Qed.

Lemma total_pos : forall l i x, Forall (fun x => 0 <= x) l -> nth_error l i = Some x -> 0 < x -> 0 < total (firstn (S i) l).
Proof.
  intros l i x F E P. rewrite (total_qsum (firstn (S i) l)). rewrite (qsum_firstn_S l i x E).
  pose proof (qsum_firstn_mono l 0 i F ltac:(lia)) as M. cbn in M. lra.
Qed.

Section Day.
Variable solar : Q.
Hypothesis solar_pos : 0 < solar.
Variable irr : list Q.
Hypothesis irr_nonneg : nonneg irr.

Lemma irr_forall : Forall (fun x => 0 <= x) irr.
Proof. apply nonneg_Forall. exact irr_nonneg. Qed.

Lemma lights_pos : forall i, lit irr i -> 0 < total (map light (firstn (S i) irr)).
Proof.
  intros i (x & E & P). unfold at_ in E. rewrite <- firstn_map. apply (total_pos _ i 1).
  - apply Forall_forall. intros y Y. apply in_map_iff in Y as (z & <- & _). apply light_nonneg.
  - rewrite nth_error_map, E. cbn. f_equal. unfold light. destruct (Qlt_le_dec 0 x); [reflexivity|lra].
  - lra.
Qed.

Lemma received_pos : forall i, lit irr i -> 0 < received solar irr i.
Proof.
  intros i L. unfold received. pose proof (lights_pos i L) as A. destruct L as (x & E & P).
  pose proof (total_pos irr i x irr_forall E P) as B.
  apply Qlt_shift_div_l; [nra|]. lra.
Qed.

Lemma ratios_nth : forall i,
  (lit irr i -> exists r, nth_error (ratios solar irr) i = Some (Some r) /\ r == received solar irr i) /\
  (~ lit irr i -> (i < length irr)%nat -> nth_error (ratios solar irr) i = Some None).
Proof.
  intro i. unfold ratios. rewrite map2_nth, map2_nth. split.
  - intro L. pose proof (lights_pos i L) as LP. pose proof L as L'. apply lit_true in L. rewrite L.
    destruct L' as (x & E & P). assert (H : (i < length irr)%nat) by (apply nth_error_Some; unfold at_ in E; congruence).
    destruct (cumsum_nth irr i H) as (c & C1 & C2). rewrite C1.
    destruct (cumsum_nth (map (fun b : bool => if b then solar else 0) (map (Qltb 0) irr)) i ltac:(rewrite !map_length; exact H)) as (d & D1 & D2). rewrite D1.
    eexists. split; [reflexivity|]. unfold received. rewrite C2, D2, <- (total_qsum (firstn (S i) irr)).
    rewrite !firstn_map, light_sum. reflexivity.
  - intros N H. rewrite nth_error_map. destruct (nth_error irr i) as [x|] eqn:E; [|apply nth_error_None in E; lia]. cbn [option_map].
    assert (Q0 : Qltb 0 x = false).
    { destruct (Qltb 0 x) eqn:Q0; [|reflexivity]. exfalso. apply N. exists x. split; [exact E|apply Qltb_lt; exact Q0]. }
    rewrite Q0. destruct (nth_error (cumsum irr) i) as [c|] eqn:C; [|apply nth_error_None in C; rewrite cumsum_length in C; lia].
    clear C. destruct (nth_error (cumsum (map _ (map _ _))) i) as [d|] eqn:D; [reflexivity|apply nth_error_None in D; rewrite cumsum_length, !map_length in D; lia].
Qed.

Lemma ratios_length : length (ratios solar irr) = length irr.
Proof. unfold ratios. rewrite !map2_length, !cumsum_length, !map_length. lia. Qed.

Lemma ratios_lit : forall i r, nth_error (ratios solar irr) i = Some (Some r) -> lit irr i /\ r == received solar irr i.
Proof.
  intros i r H. destruct (ratios_nth i) as (A & B).
  assert (D : lit irr i \/ ~ lit irr i).
  { rewrite lit_true. destruct (nth_error (map (Qltb 0) irr) i) as [[|]|]; [left; reflexivity|right; discriminate|right; discriminate]. }
  destruct D as [L|N].
  - destruct (A L) as (r' & E & F). split; [exact L|]. rewrite H in E. injection E as ->. exact F.
  - exfalso. rewrite (B N) in H; [discriminate|]. rewrite <- ratios_length. apply nth_error_Some. congruence.
Qed.

Lemma peak_found : (exists i, lit irr i) -> exists kx p, nan_argmax (ratios solar irr) = Some (kx, p) /\ peak solar irr p /\ kx == received solar irr p.
Proof.
  intros (i & L). destruct (nan_argmax (ratios solar irr)) as [[kx p]|] eqn:E.
  - exists kx, p. split; [reflexivity|]. apply nan_argmax_some in E as (A & B & C). apply ratios_lit in A as (A1 & A2).
    split; [|exact A2]. split; [exact A1|]. split.
    + intros j J. destruct (ratios_nth j) as (R & _). destruct (R J) as (r & R1 & R2). rewrite <- R2, <- A2. exact (B j r R1).
    + intros j J P. destruct (ratios_nth j) as (R & _). destruct (R J) as (r & R1 & R2). rewrite <- R2, <- A2. exact (C j r R1 P).
  - exfalso. destruct (ratios_nth i) as (R & _). destruct (R L) as (r & R1 & _). exact (nan_argmax_none _ E _ _ R1).
Qed.

Lemma peak_unique : forall p q, peak solar irr p -> peak solar irr q -> p = q.
Proof.
  intros p q (A1 & A2 & A3) (B1 & B2 & B3). destruct (lt_eq_lt_dec p q) as [[H|H]|H]; [|exact H|].
  - pose proof (B3 p A1 H). pose proof (A2 q B1). lra.
  - pose proof (A3 q B1 H). pose proof (B2 p A1). lra.
Qed.

Lemma daylight_nth : forall tmin tmax kx p, peak solar irr p -> kx == received solar irr p ->
  let c4 := daylight_temps tmin tmax kx p (ratios solar irr) in
  length c4 = length irr /\
  (forall i, lit irr i -> exists v, nth_error c4 i = Some v /\ v == sunny tmin tmax solar irr p i) /\
  (forall i, ~ lit irr i -> (i < length irr)%nat -> nth_error c4 i = Some 0).
Proof.
  intros tmin tmax kx p P K c4. split; [unfold c4, daylight_temps; rewrite map_pos_length; apply ratios_length|].
  pose proof (received_pos p (proj1 P)) as RP. split.
  - intros i L. destruct (ratios_nth i) as (R & _). destruct (R L) as (r & R1 & R2).
    unfold c4, daylight_temps. rewrite map_pos_nth, R1. cbn [option_map Nat.add].
    unfold sunny. destruct (i <=? p)%nat; eexists; (split; [reflexivity|]); rewrite R2, K; field; lra.
  - intros i N H. destruct (ratios_nth i) as (_ & R). unfold c4, daylight_temps. rewrite map_pos_nth, (R N H). reflexivity.
Qed.

End Day.

(** ** Night *)

Lemma unlit_dark : forall x, 0 <= x -> unlit x == if Qeq_bool x 0 then 1 else 0.
Proof.
  intros x H. unfold unlit. destruct (Qlt_le_dec 0 x); destruct (Qeq_bool x 0) eqn:E; try reflexivity.
  - apply Qeq_bool_iff in E. lra.
  - assert (x == 0) by lra. apply Qeq_bool_iff in H0. congruence.
Qed.

Lemma inject_S : forall n, inject_Z (Z.of_nat (S n)) == 1 + inject_Z (Z.of_nat n).
Proof. intro n. rewrite Nat2Z.inj_succ. unfold Z.succ. rewrite inject_Z_plus. ring. Qed.

Lemma masked_count : forall irr, nonneg irr -> inject_Z (Z.of_nat (length (masked (map (fun x => Qeq_bool x 0) irr) irr))) == dark_minutes irr.
Proof.
  intros irr H. apply nonneg_Forall in H. unfold masked, dark_minutes. rewrite map_length, (total_qsum (map unlit irr)).
  induction H as [|x l Hx Hl IH]; [reflexivity|]. cbn [map combine filter fst qsum]. rewrite (unlit_dark x Hx).
  destruct (Qeq_bool x 0); cbn [length]; [rewrite inject_S, IH; reflexivity|rewrite IH; ring].
Qed.

Lemma masked_lengths : forall A B (m : list bool) (l : list A) (k : list B), length l = length m -> length k = length m -> length (masked m l) = length (masked m k).
Proof.
  intros A B. unfold masked. induction m as [|b m IH]; intros [|x l] [|y k] H G; try discriminate; [reflexivity|].
  cbn [combine filter fst]. rewrite !map_length in *. specialize (IH l k ltac:(cbn in H; lia) ltac:(cbn in G; lia)). rewrite !map_length in IH.
  destruct b; cbn [length]; lia.
Qed.

Lemma masked_sum : forall irr clear, nonneg irr -> length clear = length irr ->
  qsum (masked (map (fun x => Qeq_bool x 0) irr) clear) == total (map (fun xc => unlit (fst xc) * snd xc) (combine irr clear)).
Proof.
  intros irr clear H. apply nonneg_Forall in H. rewrite (total_qsum (map _ (combine irr clear))). unfold masked. revert clear.
  induction H as [|x l Hx Hl IH]; intros [|c clear] L; try discriminate; [reflexivity|]. cbn [map combine filter fst snd qsum]. rewrite (unlit_dark x Hx).
  rewrite <- (IH clear) by (cbn in L; lia). destruct (Qeq_bool x 0); cbn [map qsum snd]; ring.
Qed.

Lemma mean_dark : forall irr clear, nonneg irr -> length clear = length irr ->
  mean (masked (map (fun x => Qeq_bool x 0) irr) clear) == dark_clearness irr clear.
Proof.
  intros irr clear H L. unfold mean, dark_clearness. rewrite masked_sum by assumption.
  rewrite (masked_lengths Q Q _ clear irr) by (rewrite map_length; auto). rewrite masked_count by assumption. reflexivity.
Qed.

(** Running subtraction. *)
Lemma cool_nth : forall (f : Q -> Q) b l i c, nth_error l i = Some c ->
  exists v, nth_error (map (fun x => b - x) (cumsum (map f l))) i = Some v /\
  match i with
  | O => v == b - f c
  | S j => exists u, nth_error (map (fun x => b - x) (cumsum (map f l))) j = Some u /\ v == u - f c
  end.
Proof.
  intros f b l i c E. assert (H : (i < length l)%nat) by (apply nth_error_Some; congruence).
  destruct (cumsum_nth (map f l) i ltac:(rewrite map_length; exact H)) as (s & S1 & S2).
  exists (b - s). rewrite nth_error_map, S1. split; [reflexivity|].
  pose proof (qsum_firstn_S (map f l) i (f c) ltac:(rewrite nth_error_map, E; reflexivity)) as F. rewrite F in S2. clear F.
  destruct i as [|j]; [rewrite S2; cbn; ring|].
  destruct (cumsum_nth (map f l) j ltac:(rewrite map_length; lia)) as (s' & S1' & S2').
  exists (b - s'). rewrite nth_error_map, S1'. split; [reflexivity|]. rewrite S2, S2'. ring.
Qed.

Lemma last_nth : forall (l : list Q) d, l <> [] -> nth_error l (length l - 1) = Some (last l d).
Proof.
  induction l as [|x l IH]; intros d H; [congruence|]. destruct l as [|y l]; [reflexivity|].
  specialize (IH d ltac:(discriminate)). cbn [length] in *. replace (S (S (length l)) - 1)%nat with (S (S (length l) - 1)) by lia. exact IH.
Qed.

Section Whole.
Variables (td dtd solar : Q) (irr clear : list Q) (p rise set : nat).
Hypothesis solar_pos : 0 < solar.
Hypothesis irr_nonneg : nonneg irr.
Hypothesis lengths : length clear = length irr.
Hypothesis is_peak : peak solar irr p.
Hypothesis is_rise : first_light irr rise.
Hypothesis is_set : last_light irr set.

Notation low := (td - (1 # 2) * dtd).
Notation high := (td + (1 # 2) * dtd).

Lemma step_day_eq : exists c4,
  step_day td dtd solar irr clear = Ok (night_temps irr clear c4 rise set) /\ length c4 = length irr /\
  (forall i, lit irr i -> exists v, nth_error c4 i = Some v /\ v == sunny low high solar irr p i) /\
  (forall i, ~ lit irr i -> (i < length irr)%nat -> nth_error c4 i = Some 0).
Proof.
  destruct (peak_found solar irr (ex_intro _ p (proj1 is_peak))) as (kx & q & E & Q & K).
  assert (q = p) by (apply (peak_unique solar irr); assumption). subst q.
  exists (daylight_temps low high kx p (ratios solar irr)). split; [|apply daylight_nth; assumption].
  unfold step_day. rewrite E. apply first_light_true in is_rise. rewrite is_rise.
  destruct (last_light_true irr set is_set) as (r & R1 & R2). rewrite R1, R2, lengths, Nat.eqb_refl. reflexivity.
Qed.

Lemma rise_set : (rise <= set < length irr)%nat.
Proof.
  destruct is_rise as (A & B). destruct is_set as (C & D). split; [exact (B set C)|]. destruct C as (x & E & _). exact (at_lt _ _ _ _ E).
Qed.

Lemma middle_nth : forall A (a b c : list A) i, (length a <= i < length a + length b)%nat -> nth_error (a ++ b ++ c) i = nth_error b (i - length a).
Proof. intros A a b c i H. rewrite nth_error_app2 by lia. apply nth_error_app1. lia. Qed.

Lemma right_nth : forall A (a b c : list A) i, (length a + length b <= i)%nat -> nth_error (a ++ b ++ c) i = nth_error c (i - length a - length b).
Proof. intros A a b c i H. rewrite nth_error_app2 by lia. apply nth_error_app2. lia. Qed.

Lemma left_nth : forall A (a b c : list A) i, (i < length a)%nat -> nth_error (a ++ b ++ c) i = nth_error a i.
Proof. intros A a b c i H. apply nth_error_app1. lia. Qed.

(** The daylight part. *)
Lemma day_part : forall c4 i, length c4 = length irr -> (rise <= i < set)%nat ->
  length (night_temps irr clear c4 rise set) = length irr /\
  nth_error (night_temps irr clear c4 rise set) i = option_map Some (nth_error c4 i).
Proof.
  intros c4 i L I. pose proof rise_set as RS. unfold night_temps.
  assert (ML : forall A B (f : A -> B) (l : list A), length l = length irr -> length (map f (firstn (set - rise) (skipn rise l))) = (set - rise)%nat)
    by (intros; rewrite map_length, firstn_length, skipn_length; lia).
  destruct (length (masked _ irr)).
  - rewrite !app_length, (ML Q) by exact L. rewrite !map_length, firstn_length, skipn_length. split; [lia|].
    rewrite middle_nth by (rewrite (ML Q) by exact L; rewrite map_length, firstn_length; lia).
    rewrite nth_error_map, map_length, firstn_length. replace (Nat.min rise (length irr)) with rise by lia.
    rewrite nth_error_firstn, nth_error_skipn by lia. do 2 f_equal. lia.
  - rewrite !app_length, (ML Q) by exact L. rewrite !map_length, !cumsum_length, !map_length, firstn_length, skipn_length. split; [lia|].
    rewrite middle_nth by (rewrite (ML Q) by exact L; rewrite !map_length, cumsum_length, map_length, firstn_length; lia).
    rewrite nth_error_map, !map_length, cumsum_length, map_length, firstn_length. replace (Nat.min rise (length clear)) with rise by lia.
    rewrite nth_error_firstn, nth_error_skipn by lia. do 2 f_equal. lia.
Qed.

Lemma temps_length : forall c4, length c4 = length irr -> length (night_temps irr clear c4 rise set) = length irr.
Proof.
  intros c4 L. pose proof rise_set as RS. unfold night_temps.
  destruct (length (masked _ irr)); rewrite !app_length, !map_length, ?cumsum_length, ?map_length, !firstn_length, !skipn_length; lia.
Qed.

Lemma night_part : forall c4, length c4 = length irr -> (rise < set)%nat -> ~ dark_minutes irr == 0 ->
  (forall i, lit irr i -> exists v, nth_error c4 i = Some v /\ v == sunny low high solar irr p i) ->
  let T := night_temps irr clear c4 rise set in
  forall i c, ((i < rise)%nat \/ (set <= i)%nat) -> at_ clear i c ->
  exists t t', at_ T i (Some t) /\ at_ T (minute_before (length irr) i) (Some t') /\ t == t' - cooling low high solar irr clear p rise set c.
Proof.
  intros c4 L RS D V T i c I C. pose proof rise_set as RS'. pose proof (at_lt _ _ _ _ C) as CL. rewrite lengths in CL.
  pose proof (masked_count irr irr_nonneg) as MC.
  destruct (length (masked (map (fun x => Qeq_bool x 0) irr) irr)) as [|k] eqn:E; [exfalso; apply D; rewrite <- MC; reflexivity|].
  set (rate := (nth set c4 0 - nth rise c4 0) / inject_Z (Z.of_nat (S k))).
  set (cool := fun c => rate - (25 # 1000) * (mean (masked (map (fun x => Qeq_bool x 0) irr) clear) - c)).
  assert (EQ : cool c == cooling low high solar irr clear p rise set c).
  { unfold cool, cooling, rate. rewrite MC. rewrite (mean_dark irr clear irr_nonneg lengths).
    destruct (V rise (proj1 is_rise)) as (a & A1 & A2). destruct (V set (proj1 is_set)) as (b & B1 & B2).
    rewrite (nth_error_nth _ _ 0 A1), (nth_error_nth _ _ 0 B1), A2, B2. field. exact D. }
  set (evening := nth (set - 1) c4 0).
  set (late := map (fun x => evening - x) (cumsum (map cool (skipn set clear)))).
  set (early := map (fun x => last late 0 - x) (cumsum (map cool (firstn rise clear)))).
  set (middle := map Some (firstn (set - rise) (skipn rise c4))).
  assert (TE : T = map Some early ++ middle ++ map Some late).
  { unfold T, night_temps. rewrite E. replace (set =? 0)%nat with false by (symmetry; apply Nat.eqb_neq; lia). reflexivity. }
  assert (LE : length (map Some early) = rise) by (unfold early; rewrite !map_length, cumsum_length, map_length, firstn_length; lia).
  assert (LM : length middle = (set - rise)%nat) by (unfold middle; rewrite map_length, firstn_length, skipn_length; lia).
  assert (LL : length late = (length irr - set)%nat) by (unfold late; rewrite map_length, cumsum_length, map_length, skipn_length; lia).
  assert (AL : forall j, (set <= j)%nat -> nth_error T j = option_map Some (nth_error late (j - set))).
  { intros j J. rewrite TE, right_nth by lia. rewrite LE, LM, nth_error_map. do 2 f_equal. lia. }
  assert (AE : forall j, (j < rise)%nat -> nth_error T j = option_map Some (nth_error early j)).
  { intros j J. rewrite TE, left_nth by lia. apply nth_error_map. }
  assert (AM : nth_error T (set - 1) = Some (Some evening)).
  { unfold T. rewrite (proj2 (day_part c4 (set - 1) L ltac:(lia))). unfold evening.
    rewrite (nth_error_nth' c4 0) by lia. reflexivity. }
  unfold at_, minute_before. destruct I as [I|I].
  - assert (CC : nth_error (firstn rise clear) i = Some c) by (rewrite nth_error_firstn by exact I; exact C).
    destruct (cool_nth cool (last late 0) (firstn rise clear) i c CC) as (v & V1 & V2). fold early in V1, V2.
    destruct i as [|j]; cbn [Nat.eqb].
    + exists v, (last late 0). rewrite (AE 0%nat I), V1. split; [reflexivity|]. split; [|rewrite V2, EQ; reflexivity].
      rewrite AL by lia. replace (length irr - 1 - set)%nat with (length late - 1)%nat by lia. rewrite (last_nth late 0); [reflexivity|].
      intro Z. rewrite Z in LL. cbn in LL. lia.
    + destruct V2 as (u & U1 & U2). exists v, u. rewrite (AE (S j) I), V1. split; [reflexivity|]. replace (S j - 1)%nat with j by lia.
      rewrite (AE j) by lia. rewrite U1. split; [reflexivity|]. rewrite U2, EQ. reflexivity.
  - assert (CC : nth_error (skipn set clear) (i - set) = Some c) by (rewrite nth_error_skipn; replace (set + (i - set))%nat with i by lia; exact C).
    destruct (cool_nth cool evening (skipn set clear) (i - set) c CC) as (v & V1 & V2). fold late in V1, V2.
    replace (i =? 0)%nat with false by (symmetry; apply Nat.eqb_neq; lia).
    destruct (i - set)%nat as [|j] eqn:J.
    + exists v, evening. rewrite (AL i I), J, V1. split; [reflexivity|]. replace (i - 1)%nat with (set - 1)%nat by lia. split; [exact AM|]. rewrite V2, EQ. reflexivity.
    + destruct V2 as (u & U1 & U2). exists v, u. rewrite (AL i I), J, V1. split; [reflexivity|]. rewrite (AL (i - 1)%nat) by lia.
      replace (i - 1 - set)%nat with j by lia. rewrite U1. split; [reflexivity|]. rewrite U2, EQ. reflexivity.
Qed.

(** Without night the sunset minute and those after are nan. *)
Lemma no_night : forall c4, length c4 = length irr -> dark_minutes irr == 0 -> nth_error (night_temps irr clear c4 rise set) set = Some None.
Proof.
  intros c4 L D. pose proof rise_set as RS. pose proof (masked_count irr irr_nonneg) as MC. rewrite D in MC. unfold night_temps.
  destruct (length (masked (map (fun x => Qeq_bool x 0) irr) irr)) as [|k] eqn:E.
  - rewrite right_nth by (rewrite !map_length, !firstn_length, skipn_length; lia).
    rewrite !map_length, !firstn_length, skipn_length, nth_error_map, nth_error_skipn.
    replace (set + (set - Nat.min rise (length irr) - Nat.min (set - rise) (length c4 - rise)))%nat with set by lia.
    rewrite (nth_error_nth' irr 0) by lia. reflexivity.
  - exfalso. rewrite inject_S in MC. assert (0 <= inject_Z (Z.of_nat k)) by (change 0 with (inject_Z 0); rewrite <- Zle_Qle; lia). lra.
Qed.

End Whole.

(** ** A whole night *)

Definition value (T : list (option Q)) (i : nat) : Q := match nth_error T i with Some (Some v) => v | _ => 0 end.

Lemma run_down : forall (t f : nat -> Q) k a, (0 < a)%nat -> (forall i, (a <= i < a + k)%nat -> t i == t (i - 1)%nat - f i) ->
  t (a + k - 1)%nat == t (a - 1)%nat - qsum (map f (seq a k)).
Proof.
  intros t f. induction k as [|k IH]; intros a A H.
  - rewrite Nat.add_0_r. cbn. ring.
  - cbn [seq map qsum]. pose proof (H a ltac:(lia)) as H0.
    specialize (IH (S a) ltac:(lia) ltac:(intros; apply H; lia)).
    replace (a + S k - 1)%nat with (S a + k - 1)%nat by lia. rewrite IH. replace (S a - 1)%nat with a by lia. rewrite H0. ring.
Qed.

Lemma map_combine : forall (g : Q * Q -> Q) a b, length b = length a ->
  map g (combine a b) = map (fun i => g (nth i a 0, nth i b 0)) (seq 0 (length a)).
Proof.
  intros g. induction a as [|x a IH]; intros [|y b] L; try discriminate; [reflexivity|].
  cbn [combine map length seq]. rewrite <- seq_shift, map_map. cbn [nth]. f_equal. apply IH. cbn in L. lia.
Qed.

Lemma map_nth_seq : forall (g : Q -> Q) a, map g a = map (fun i => g (nth i a 0)) (seq 0 (length a)).
Proof.
  intro g. induction a as [|x a IH]; [reflexivity|]. cbn [map length seq]. rewrite <- seq_shift, map_map. cbn [nth]. f_equal. exact IH.
Qed.

Lemma dark_total : forall low high solar irr clear p rise set, length clear = length irr -> ~ dark_minutes irr == 0 ->
  qsum (map (fun i => unlit (nth i irr 0) * cooling low high solar irr clear p rise set (nth i clear 0)) (seq 0 (length irr))) ==
  sunny low high solar irr p set - sunny low high solar irr p rise.
Proof.
  intros low high solar irr clear p rise set L D.
  set (R := sunny low high solar irr p set - sunny low high solar irr p rise). set (m := dark_clearness irr clear).
  assert (E : qsum (map (fun i => unlit (nth i irr 0) * cooling low high solar irr clear p rise set (nth i clear 0)) (seq 0 (length irr))) ==
    qsum (map (fun i => unlit (nth i irr 0) * (R / dark_minutes irr - (1 # 40) * m) + (1 # 40) * (unlit (nth i irr 0) * nth i clear 0)) (seq 0 (length irr)))).
  { apply qsum_ext. intros i _. unfold cooling. fold R m. field. exact D. }
  rewrite E, qsum_map_add.
  assert (A : forall c f l, qsum (map (fun i : nat => f i * c) l) == qsum (map f l) * c).
  { intros c f l. induction l as [|x l IH]; cbn [map qsum]; [ring|]. rewrite IH. ring. }
  assert (B : forall c f l, qsum (map (fun i : nat => c * f i) l) == c * qsum (map f l)).
  { intros c f l. induction l as [|x l IH]; cbn [map qsum]; [ring|]. rewrite IH. ring. }
  rewrite A, B. rewrite <- (map_nth_seq unlit irr).
  assert (S1 : qsum (map unlit irr) = dark_minutes irr) by (unfold dark_minutes; symmetry; apply total_qsum). rewrite S1.
  assert (S2 : qsum (map (fun i => unlit (nth i irr 0) * nth i clear 0) (seq 0 (length irr))) == m * dark_minutes irr).
  { unfold m, dark_clearness. rewrite (total_qsum (map (fun xc => unlit (fst xc) * snd xc) (combine irr clear))).
    rewrite (map_combine (fun xc => unlit (fst xc) * snd xc)) by exact L. cbn [fst snd]. field. exact D. }
  rewrite S2. field. exact D.
Qed.

Lemma night_total : forall low high solar irr clear T p rise set,
  length clear = length irr -> nonneg irr -> ~ dark_minutes irr == 0 -> first_light irr rise -> last_light irr set ->
  (forall i, (rise <= i <= set)%nat -> lit irr i) -> (0 < rise)%nat ->
  (forall i c, ((i < rise)%nat \/ (set <= i)%nat) -> at_ clear i c ->
    exists t t', at_ T i (Some t) /\ at_ T (minute_before (length irr) i) (Some t') /\ t == t' - cooling low high solar irr clear p rise set c) ->
  value T (rise - 1) == value T (set - 1) - (sunny low high solar irr p set - sunny low high solar irr p rise) - cooling low high solar irr clear p rise set (nth set clear 0).
Proof.
  intros low high solar irr clear T p rise set L NN D FL LL Mid RP H.
  set (f := fun i => cooling low high solar irr clear p rise set (nth i clear 0)).
  assert (SL : (rise <= set < length irr)%nat).
  { destruct LL as (LL1 & _). split; [apply (proj2 FL); exact LL1|]. destruct LL1 as (x & E & _). exact (at_lt _ _ _ _ E). }
  assert (Rc : forall i, (i < length irr)%nat -> (i < rise)%nat \/ (set <= i)%nat -> value T i == value T (minute_before (length irr) i) - f i).
  { intros i I J. destruct (H i (nth i clear 0) J) as (t & t' & A & B & E).
    - unfold at_. apply nth_error_nth'. lia.
    - unfold value. unfold at_ in A, B. rewrite A, B. exact E. }
  pose proof (run_down (value T) f (length irr - set) set ltac:(lia)) as U.
  assert (U' : value T (length irr - 1) == value T (set - 1) - qsum (map f (seq set (length irr - set)))).
  { replace (length irr - 1)%nat with (set + (length irr - set) - 1)%nat at 1 by lia. apply U. intros i I. rewrite (Rc i) by lia. unfold minute_before.
    replace (i =? 0)%nat with false by (symmetry; apply Nat.eqb_neq; lia). reflexivity. }
  assert (V : value T (rise - 1) == value T (length irr - 1) - qsum (map f (seq 0 rise))).
  { pose proof (run_down (value T) f (rise - 1) 1 ltac:(lia)) as W. replace (1 + (rise - 1) - 1)%nat with (rise - 1)%nat in W by lia.
    rewrite W. 2:{ intros i I. rewrite (Rc i) by lia. unfold minute_before. replace (i =? 0)%nat with false by (symmetry; apply Nat.eqb_neq; lia). reflexivity. }
    change (1 - 1)%nat with 0%nat. rewrite (Rc 0%nat) by lia. unfold minute_before. cbn [Nat.eqb].
    replace (seq 0 rise) with (0%nat :: seq 1 (rise - 1)) by (replace rise with (S (rise - 1)) at 2 by lia; reflexivity). cbn [map qsum]. ring. }
  assert (DT := dark_total low high solar irr clear p rise set L D). fold f in DT.
  assert (UL : forall i, (i < length irr)%nat -> unlit (nth i irr 0) == if (i <? rise)%nat || (set <? i)%nat then 1 else 0).
  { intros i I. assert (N : nth_error irr i = Some (nth i irr 0)) by (apply nth_error_nth'; lia). unfold unlit.
    destruct (Qlt_le_dec 0 (nth i irr 0)) as [P|P].
    - assert (LI : lit irr i) by (exists (nth i irr 0); split; assumption). pose proof (proj2 FL i LI). pose proof (proj2 LL i LI).
      replace ((i <? rise)%nat || (set <? i)%nat) with false; [reflexivity|]. symmetry. apply orb_false_iff. split; apply Nat.ltb_ge; lia.
    - destruct ((i <? rise)%nat || (set <? i)%nat) eqn:B; [reflexivity|]. apply orb_false_iff in B as (B1 & B2). apply Nat.ltb_ge in B1, B2.
      destruct (Mid i ltac:(lia)) as (x & E & X). unfold at_ in E. rewrite N in E. injection E as E. rewrite <- E in X. lra. }
  assert (SP : seq 0 (length irr) = seq 0 rise ++ seq rise (S set - rise) ++ seq (S set) (length irr - S set)).
  { replace (length irr) with (rise + ((S set - rise) + (length irr - S set)))%nat at 1 by lia. rewrite !seq_app. cbn [Nat.add].
    replace (rise + (S set - rise))%nat with (S set) by lia. reflexivity. }
  assert (Z : qsum (map f (seq 0 rise)) + qsum (map f (seq (S set) (length irr - S set))) == sunny low high solar irr p set - sunny low high solar irr p rise).
  { rewrite <- DT, SP, !map_app, !qsum_app.
    rewrite (qsum_ext _ (fun i => unlit (nth i irr 0) * cooling low high solar irr clear p rise set (nth i clear 0)) f (seq 0 rise)).
    2:{ intros i I. apply in_seq in I. rewrite UL by lia. replace (i <? rise)%nat with true by (symmetry; apply Nat.ltb_lt; lia). cbn [orb]. unfold f. ring. }
    rewrite (qsum_ext _ (fun i => unlit (nth i irr 0) * cooling low high solar irr clear p rise set (nth i clear 0)) f (seq (S set) (length irr - S set))).
    2:{ intros i I. apply in_seq in I. rewrite UL by lia. replace (set <? i)%nat with true by (symmetry; apply Nat.ltb_lt; lia). rewrite orb_true_r. unfold f. ring. }
    rewrite (qsum_zero (map _ (seq rise (S set - rise)))).
    2:{ apply Forall_forall. intros y Y. apply in_map_iff in Y as (i & <- & I). apply in_seq in I. rewrite UL by lia.
        replace (i <? rise)%nat with false by (symmetry; apply Nat.ltb_ge; lia). replace (set <? i)%nat with false by (symmetry; apply Nat.ltb_ge; lia). cbn [orb]. ring. }
    ring. }
  rewrite V, U', <- Z.
  replace (seq set (length irr - set)) with (set :: seq (S set) (length irr - S set)) by (replace (length irr - set)%nat with (S (length irr - S set)) by lia; reflexivity).
  cbn [map qsum]. change (cooling low high solar irr clear p rise set (nth set clear 0)) with (f set). ring.
Qed.
