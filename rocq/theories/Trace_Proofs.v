(** * Proofs about the resampling of measured profiles. *)

From Coq Require Import String List ZArith QArith Bool Arith Lia Lqa.
From Verif Require Import Prelude PreludeFacts SpecBase SpecBaseFacts Trace_Model Trace_Spec.
Import ListNotations.
Open Scope Q_scope.

(** ** Interpolation *)

Lemma in_order_tail : forall a r, in_order (a :: r) -> in_order r.
Proof. intros a r H i x y Hx Hy. exact (H (S i) x y Hx Hy). Qed.

Lemma in_order_first : forall r a i b, in_order (a :: r) -> at_ (a :: r) i b -> (fst a <= fst b)%Z.
Proof.
  induction r as [|c r IH]; intros a i b H Hb.
  - destruct i as [|i]; [injection Hb as <-; lia|destruct i; discriminate].
  - destruct i as [|i]; [injection Hb as <-; lia|]. specialize (H 0%nat a c eq_refl eq_refl) as H0.
    specialize (IH c i b (in_order_tail _ _ H) Hb). lia.
Qed.

Lemma segment_line : forall rest x x0 y0 j a b, in_order ((x0, y0) :: rest) ->
  at_ ((x0, y0) :: rest) j a -> at_ ((x0, y0) :: rest) (S j) b -> (fst a <= x < fst b)%Z ->
  on_line a b x (segment x x0 y0 rest).
Proof.
  induction rest as [|[x1 y1] t IH]; intros x x0 y0 j a b O Ha Hb Hx.
  - destruct j; discriminate.
  - cbn [segment]. destruct (Z.ltb_spec x x1) as [L|L].
    + destruct j as [|j].
      * injection Ha as <-. injection Hb as <-. cbn [fst snd] in *. destruct (Z.ltb_spec x x0); [lia|].
        unfold on_line. cbn [fst snd]. assert (N : ~ inject_Z (x1 - x0) == 0) by (change 0 with (inject_Z 0); rewrite inject_Z_injective; lia).
        field. exact N.
      * exfalso. pose proof (in_order_first t (x1, y1) j a (in_order_tail _ _ O) Ha). cbn [fst] in *. lia.
    + destruct j as [|j].
      * exfalso. injection Hb as <-. cbn [fst] in *. lia.
      * apply (IH x x1 y1 j a b (in_order_tail _ _ O) Ha Hb Hx).
Qed.

Lemma segment_exists : forall rest x x0 y0, (x0 <= x < last_second x0 rest)%Z -> exists j a b,
  at_ ((x0, y0) :: rest) j a /\ at_ ((x0, y0) :: rest) (S j) b /\ (fst a <= x < fst b)%Z.
Proof.
  induction rest as [|[x1 y1] t IH]; intros x x0 y0 H; cbn [last_second] in H; [lia|].
  destruct (Z.lt_ge_cases x x1) as [L|L].
  - exists 0%nat, (x0, y0), (x1, y1). repeat split; cbn; lia.
  - destruct (IH x x1 y1 ltac:(lia)) as (j & a & b & Ha & Hb & Hx). exists (S j), a, b. auto.
Qed.

Lemma between_line : forall a b s v lo hi, (fst a <= s < fst b)%Z -> on_line a b s v ->
  lo <= snd a <= hi -> lo <= snd b <= hi -> lo <= v <= hi.
Proof.
  intros [x0 y0] [x1 y1] s v lo hi Hs L Ha Hb. unfold on_line in L. cbn [fst snd] in *.
  set (d := inject_Z (x1 - x0)) in *. set (e := inject_Z (s - x0)) in *.
  assert (D : 0 < d) by (unfold d; change 0 with (inject_Z 0); rewrite <- Zlt_Qlt; lia).
  assert (E : 0 <= e) by (unfold e; change 0 with (inject_Z 0); rewrite <- Zle_Qle; lia).
  assert (F : e <= d) by (unfold d, e; rewrite <- Zle_Qle; lia).
  assert (V : v * d == y0 * (d - e) + y1 * e) by lra. clear L.
  split.
  - apply (Qmult_le_r _ _ d D). rewrite V. assert (lo * (d - e) <= y0 * (d - e)) by (apply Qmult_le_compat_r; lra).
    assert (lo * e <= y1 * e) by (apply Qmult_le_compat_r; lra). lra.
  - apply (Qmult_le_r _ _ d D). rewrite V. assert (y0 * (d - e) <= hi * (d - e)) by (apply Qmult_le_compat_r; lra).
    assert (y1 * e <= hi * e) by (apply Qmult_le_compat_r; lra). lra.
Qed.

Lemma last_second_final : forall rest x0 y0 b, final_reading ((x0, y0) :: rest) b -> last_second x0 rest = fst b.
Proof.
  induction rest as [|[x1 y1] t IH]; intros x0 y0 b H.
  - injection H as <-. reflexivity.
  - cbn [last_second]. apply (IH x1 y1 b). unfold final_reading in *. cbn [length] in *.
    replace (S (S (length t)) - 1)%nat with (S (S (length t) - 1)) in H by lia. exact H.
Qed.

Lemma arange_at : forall a b k x, at_ (arange a b) k x <-> (x = a + Z.of_nat k /\ x < b)%Z.
Proof.
  intros a b k x. unfold at_, arange. rewrite nth_error_map. split.
  - intro H. destruct (nth_error (seq 0 (Z.to_nat (b - a))) k) as [i|] eqn:E; [|discriminate]. injection H as <-.
    assert (L : (k < Z.to_nat (b - a))%nat) by (rewrite <- (seq_length (Z.to_nat (b - a)) 0); apply nth_error_Some; congruence).
    rewrite (nth_error_nth' _ 0%nat) in E by (rewrite seq_length; exact L). rewrite seq_nth in E by exact L. injection E as <-. lia.
  - intros [-> H]. rewrite (nth_error_nth' _ 0%nat) by (rewrite seq_length; lia). rewrite seq_nth by lia. reflexivity.
Qed.

Theorem per_second_spec : forall r a b, in_order r -> first_reading r a -> final_reading r b ->
  exists load, per_second r = Ok load /\ Z.of_nat (length load) = (fst b - fst a)%Z /\
  forall k v, at_ load k v -> exists j p q, at_ r j p /\ at_ r (S j) q /\
    (fst p <= fst a + Z.of_nat k < fst q)%Z /\ on_line p q (fst a + Z.of_nat k) v.
Proof.
  intros r a b O Ha Hb. destruct r as [|[x0 y0] rest]; [discriminate|]. injection Ha as <-.
  pose proof (last_second_final rest x0 y0 b Hb) as Hl. cbn [fst per_second]. eexists. split; [reflexivity|]. split.
  - rewrite map_length. unfold arange. rewrite map_length, seq_length, Hl.
    pose proof (in_order_first rest (x0, y0) _ b O Hb) as L. cbn [fst] in L. lia.
  - intros k v H. unfold at_ in H. rewrite nth_error_map in H. destruct (nth_error (arange x0 (last_second x0 rest)) k) as [x|] eqn:E; [|discriminate].
    injection H as <-. apply arange_at in E as [-> L].
    destruct (segment_exists rest (x0 + Z.of_nat k) x0 y0 ltac:(lia)) as (j & p & q & Hp & Hq & Hx).
    exists j, p, q. repeat (split; [assumption|]). exact (segment_line rest _ x0 y0 j p q O Hp Hq Hx).
Qed.

(** The value is determined: at a reading it is the reading. *)
Lemma per_second_reading : forall r a load j p, in_order r -> first_reading r a -> per_second r = Ok load ->
  at_ r j p -> (exists q, at_ r (S j) q /\ (fst p < fst q)%Z) -> exists k v, Z.of_nat k = (fst p - fst a)%Z /\ at_ load k v /\ v == snd p.
Proof.
  intros r a load j p O Ha E Hp (q & Hq & L). destruct r as [|[x0 y0] rest]; [discriminate|]. injection Ha as <-. cbn [per_second fst] in *. injection E as <-.
  pose proof (in_order_first rest (x0, y0) j p O Hp) as L0. cbn [fst] in L0.
  assert (Hfin : (fst q <= last_second x0 rest)%Z).
  { clear -Hq O. revert x0 y0 j O Hq. induction rest as [|[x1 y1] t IH]; intros x0 y0 j O Hq; [destruct j; discriminate|].
    cbn [last_second]. destruct j as [|j].
    - injection Hq as <-. cbn [fst]. clear IH. apply in_order_tail in O. revert x1 y1 O. induction t as [|[x2 y2] t IH]; intros x1 y1 O; cbn; [lia|].
      pose proof (O 0%nat (x1, y1) (x2, y2) eq_refl eq_refl). cbn [fst] in *. specialize (IH x2 y2 (in_order_tail _ _ O)). lia.
    - apply (IH x1 y1 j (in_order_tail _ _ O) Hq). }
  exists (Z.to_nat (fst p - x0)). eexists. split; [lia|]. split.
  - unfold at_. rewrite nth_error_map. erewrite (proj2 (arange_at x0 (last_second x0 rest) (Z.to_nat (fst p - x0)) (fst p))); [reflexivity|lia].
  - pose proof (segment_line rest (fst p) x0 y0 j p q O Hp Hq ltac:(lia)) as S. unfold on_line in S.
    rewrite Z.sub_diag in S. change (inject_Z 0) with 0 in S.
    assert (D : 0 < inject_Z (fst q - fst p)) by (change 0 with (inject_Z 0); rewrite <- Zlt_Qlt; lia).
    assert (Z : (segment (fst p) x0 y0 rest - snd p) * inject_Z (fst q - fst p) == 0) by (rewrite S; ring).
    apply Qmult_integral in Z. destruct Z; lra.
Qed.

(** ** Averages *)

Lemma skipn_more : forall A (l : list A) a b, skipn a (skipn b l) = skipn (b + a) l.
Proof. intros A l a b. revert l. induction b as [|b IH]; intro l; [reflexivity|]. destruct l as [|x l]; [rewrite !skipn_nil; reflexivity|]. cbn [skipn Nat.add]. apply IH. Qed.

Lemma total_app : forall l m, total (l ++ m) == total l + total m.
Proof. induction l as [|x l IH]; intro m; unfold total in *; cbn [fold_right List.app]; [ring|]. rewrite IH. ring. Qed.

Lemma total_zeros : forall n, total (repeat 0 n) == 0.
Proof. induction n as [|n IH]; [reflexivity|]. unfold total in *. cbn [repeat fold_right]. rewrite IH. ring. Qed.

Lemma windows_total : forall n w l, length l = (n * w)%nat ->
  total (map (fun k => qsum (firstn w (skipn (k * w) l))) (seq 0 n)) == total l.
Proof.
  induction n as [|n IH]; intros w l H.
  - destruct l; [reflexivity|discriminate].
  - cbn [seq map]. rewrite <- seq_shift, map_map. unfold total at 1. cbn [fold_right].
    rewrite (map_ext _ (fun k => qsum (firstn w (skipn (k * w) (skipn w l))))) by (intro k; rewrite skipn_more; reflexivity).
    fold (total (map (fun k => qsum (firstn w (skipn (k * w) (skipn w l)))) (seq 0 n))).
    rewrite IH by (rewrite skipn_length, H; lia). rewrite <- total_qsum. cbn [Nat.mul skipn]. rewrite <- total_app, firstn_skipn. reflexivity.
Qed.

Lemma total_div : forall (f : nat -> Q) l c, ~ c == 0 -> total (map (fun k => f k / c) l) * c == total (map f l).
Proof.
  intros f l c N. induction l as [|k l IH]; unfold total in *; cbn [map fold_right]; [ring|]. rewrite Qmult_plus_distr_l, IH.
  field. exact N.
Qed.

(** The form of the result for a whole number of seconds above one. *)
Lemma resample_form : forall step w load, (Z.quot step 1000000 = Z.of_nat w)%Z -> (2 <= w)%nat ->
  let m := (w - length load mod w)%nat in
  let padded := load ++ repeat 0 m in
  length padded = ((length load / w + 1) * w)%nat /\
  resample step load = Ok (map (fun k => qsum (firstn w (skipn (k * w) padded)) / inject_Z (Z.of_nat w)) (seq 0 (length load / w + 1))).
Proof.
  intros step w load Hs Hw m padded.
  pose proof (Nat.mod_upper_bound (length load) w ltac:(lia)) as U.
  pose proof (Nat.div_mod (length load) w ltac:(lia)) as D.
  assert (L : length padded = ((length load / w + 1) * w)%nat).
  { unfold padded. rewrite List.app_length, repeat_length. unfold m. nia. }
  split; [exact L|]. unfold resample. rewrite Hs.
  destruct (Z.eqb_spec (Z.of_nat w) 1); [lia|]. destruct (Z.eqb_spec (Z.of_nat w) 0); [lia|].
  rewrite <- Nat2Z.inj_mod. destruct (Z.ltb_spec (Z.of_nat w - Z.of_nat (length load mod w)) 0); [lia|].
  rewrite <- Nat2Z.inj_sub by lia. rewrite Nat2Z.id. fold m. rewrite Nat2Z.id. f_equal. fold padded.
  replace (Nat.div (length padded) w) with (length load / w + 1)%nat; [reflexivity|]. rewrite L. symmetry. apply Nat.div_mul. lia.
Qed.

Lemma padded_at : forall load m k x, at_ (load ++ repeat 0 m) k x -> load_at load k x.
Proof.
  intros load m k x H. unfold at_ in H. destruct (Nat.lt_ge_cases k (length load)) as [L|L].
  - rewrite nth_error_app1 in H by exact L. left. exact H.
  - rewrite nth_error_app2 in H by exact L. right. split; [exact L|]. apply nth_error_In, repeat_spec in H. exact H.
Qed.

Lemma at_firstn_skipn : forall A (l : list A) w s i x, at_ (firstn w (skipn s l)) i x -> at_ l (s + i) x.
Proof.
  intros A l w s i x H. unfold at_ in *.
  assert (nth_error (skipn s l) i = Some x) as E.
  { revert i H. generalize (skipn s l) as m. clear. induction w as [|w IH]; intros m i H; [destruct i; discriminate|].
    destruct m as [|y m]; [destruct i; discriminate|]. destruct i; [exact H|]. cbn in *. apply IH. exact H. }
  clear H. revert l E. induction s as [|s IH]; intros l E; [exact E|]. destruct l as [|y l]; [destruct i; discriminate|]. cbn in *. apply IH. exact E.
Qed.

Lemma seq_at : forall n k i, at_ (seq 0 n) k i <-> (k < n)%nat /\ i = k.
Proof.
  intros n k i. unfold at_. split.
  - intro H. assert (L : (k < n)%nat) by (rewrite <- (seq_length n 0); apply nth_error_Some; congruence).
    rewrite (nth_error_nth' _ 0%nat) in H by (rewrite seq_length; exact L). rewrite seq_nth in H by exact L. injection H as <-. auto.
  - intros [L ->]. rewrite (nth_error_nth' _ 0%nat) by (rewrite seq_length; exact L). rewrite seq_nth by exact L. reflexivity.
Qed.

Theorem resample_spec : forall step w load, (Z.quot step 1000000 = Z.of_nat w)%Z -> (2 <= w)%nat ->
  exists out, resample step load = Ok out /\ length out = (length load / w + 1)%nat /\
    (forall k x, at_ out k x -> mean_of load w k x) /\
    total out * inject_Z (Z.of_nat w) == total load.
Proof.
  intros step w load Hs Hw. destruct (resample_form step w load Hs Hw) as [L E]. cbn zeta in L, E.
  set (padded := load ++ repeat 0 (w - length load mod w)) in *.
  assert (N : ~ inject_Z (Z.of_nat w) == 0) by (change 0 with (inject_Z 0); rewrite inject_Z_injective; lia).
  eexists. split; [exact E|]. split; [rewrite map_length, seq_length; reflexivity|]. split.
  - intros k x H. unfold at_ in H. rewrite nth_error_map in H. destruct (nth_error (seq 0 (length load / w + 1)) k) as [i|] eqn:Ei; [|discriminate].
    injection H as <-. apply seq_at in Ei as [Lk ->]. exists (firstn w (skipn (k * w) padded)). split; [|split].
    + rewrite firstn_length, skipn_length, L. nia.
    + intros i y Hy. apply at_firstn_skipn in Hy. eapply padded_at. exact Hy.
    + rewrite <- total_qsum. field. exact N.
  - rewrite (total_div (fun k => qsum (firstn w (skipn (k * w) padded)))) by exact N. rewrite windows_total by exact L.
    unfold padded. rewrite total_app, total_zeros. ring.
Qed.

Lemma mean_bounds : forall load w k x lo hi, (1 <= w)%nat -> mean_of load w k x -> lo <= 0 -> 0 <= hi ->
  Forall (fun y => lo <= y <= hi) load -> lo <= x <= hi.
Proof.
  intros load w k x lo hi Hw (l & Hl & Hv & E) H0 H1 F.
  assert (B : Forall (fun y => lo <= y <= hi) l).
  { apply Forall_forall. intros y Hy. apply in_at in Hy as [i Hi]. destruct (Hv i y Hi) as [H|[_ ->]]; [|lra].
    rewrite Forall_forall in F. apply F. eapply at_in; exact H. }
  assert (S : lo * inject_Z (Z.of_nat (length l)) <= total l <= hi * inject_Z (Z.of_nat (length l))).
  { clear -B. induction B as [|y l Hy B IH]; [change (inject_Z (Z.of_nat (@length Q []))) with 0; unfold total; cbn [fold_right]; lra|].
    unfold total in *. cbn [fold_right length]. rewrite Nat2Z.inj_succ, <- Z.add_1_r, inject_Z_plus. change (inject_Z 1) with 1. lra. }
  rewrite Hl in S. set (d := inject_Z (Z.of_nat w)) in *.
  assert (D : 0 < d) by (unfold d; change 0 with (inject_Z 0); rewrite <- Zlt_Qlt; lia).
  split; apply (Qmult_le_r _ _ d D); lra.
Qed.

(** ** Cropping *)

Lemma above_bounds : forall l i k, In k (above i l) -> (i <= k < i + length l)%nat.
Proof.
  induction l as [|x l IH]; intros i k H; [contradiction|]. cbn [above] in H. cbn [length].
  destruct (Qltb 6 x); [destruct H as [<-|H]; [lia|]|]; apply IH in H; lia.
Qed.

Lemma above_in : forall l i k, In k (above i l) <-> exists x, (i <= k)%nat /\ at_ l (k - i) x /\ 6 < x.
Proof.
  induction l as [|x l IH]; intros i k.
  - split; [contradiction|]. intros (x & _ & H & _). destruct (k - i)%nat; discriminate.
  - cbn [above]. assert (T : In k (above (S i) l) <-> exists y, (S i <= k)%nat /\ at_ (x :: l) (k - i) y /\ 6 < y).
    { rewrite IH. split; intros (y & L & H & B); exists y; split; [lia| |lia|]; (split; [|exact B]).
      - replace (k - i)%nat with (S (k - S i)) by lia. exact H.
      - replace (k - i)%nat with (S (k - S i)) in H by lia. exact H. }
    assert (Z0 : forall y, at_ (x :: l) (k - i) y -> (i <= k)%nat -> ~ (S i <= k)%nat -> y = x /\ k = i).
    { intros y H L N. assert (k = i) as -> by lia. rewrite Nat.sub_diag in H. injection H as <-. auto. }
    destruct (Qltb 6 x) eqn:E.
    + apply Qltb_lt in E. cbn [In]. rewrite T. split.
      * intros [<-|(y & L & H)]; [exists x; rewrite Nat.sub_diag; split; [lia|split; [reflexivity|exact E]]|exists y; split; [lia|exact H]].
      * intros (y & L & H & B). destruct (le_lt_dec (S i) k) as [L'|L']; [right; exists y; auto|left]. destruct (Z0 y H L ltac:(lia)). auto.
    + apply Qltb_ge in E. rewrite T. split.
      * intros (y & L & H). exists y. split; [lia|exact H].
      * intros (y & L & H & B). destruct (le_lt_dec (S i) k) as [L'|L']; [exists y; auto|]. destruct (Z0 y H L ltac:(lia)) as [-> _]. lra.
Qed.

Lemma above_sorted_first : forall l i a t, above i l = a :: t -> forall k, In k (a :: t) -> (a <= k)%nat.
Proof.
  induction l as [|x l IH]; intros i a t H k Hk; [discriminate|]. cbn [above] in H. destruct (Qltb 6 x).
  - injection H as <- <-. destruct Hk as [<-|Hk]; [lia|]. apply above_bounds in Hk. lia.
  - exact (IH (S i) a t H k Hk).
Qed.

Lemma last_in : forall A (l : list A) d, l <> [] -> In (List.last l d) l.
Proof. induction l as [|x l IH]; intros d H; [congruence|]. destruct l as [|y l]; [left; reflexivity|]. right. apply IH. discriminate. Qed.

Lemma above_sorted_last : forall l i d k, In k (above i l) -> (k <= List.last (above i l) d)%nat.
Proof.
  induction l as [|x l IH]; intros i d k H; [contradiction|]. cbn [above] in *. destruct (Qltb 6 x); [|apply IH; exact H].
  destruct (above (S i) l) as [|b t] eqn:E.
  - destruct H as [<-|[]]. cbn. lia.
  - destruct H as [<-|H].
    + assert (B : In (List.last (b :: t) d) (above (S i) l)) by (rewrite E; apply last_in; discriminate).
      apply above_bounds in B. change (List.last (i :: b :: t) d) with (List.last (b :: t) d). lia.
    + change (List.last (i :: b :: t) d) with (List.last (b :: t) d). rewrite <- E in H |- *. apply IH. exact H.
Qed.

Lemma crop_spec : forall load p, crop load = Ok p -> on_part load p.
Proof.
  intros load p H. unfold crop in H. destruct (above 0 load) as [|a t] eqn:E; [discriminate|]. cbv zeta in H.
  assert (Lt : List.last t a = List.last (a :: t) a) by (destruct t; reflexivity).
  injection H as <-. rewrite Lt. set (b := List.last (a :: t) a) in *.
  assert (Ba : In a (above 0 load)) by (rewrite E; left; reflexivity).
  assert (Bb : In b (above 0 load)) by (rewrite E; apply last_in; discriminate).
  assert (Hab : (a <= b)%nat) by (eapply above_sorted_first; [exact E|rewrite <- E; exact Bb]).
  pose proof (above_bounds _ _ _ Bb) as Lb. cbn [Nat.add] in Lb.
  set (c := (b + 1 - a)%nat).
  exists (firstn a load), (skipn (a + c) load). 
  assert (Hsplit : load = firstn a load ++ firstn c (skipn a load) ++ skipn (a + c) load).
  { rewrite <- skipn_more, firstn_skipn, firstn_skipn. reflexivity. }
  split; [exact Hsplit|]. split; [|split; [|split]].
  - apply Forall_forall. intros x Hx. apply in_at in Hx as [i Hi]. 
    pose proof (at_lt _ _ _ _ Hi) as Li. rewrite firstn_length in Li.
    assert (Hx : at_ load i x) by (apply (at_firstn_skipn _ load a 0 i x); cbn [skipn Nat.add]; exact Hi).
    destruct (Qlt_le_dec 6 x) as [L|L]; [|exact L]. exfalso.
    assert (In i (above 0 load)) as Hin by (apply above_in; exists x; rewrite Nat.sub_0_r; auto with arith).
    rewrite E in Hin. pose proof (above_sorted_first _ _ _ _ E i Hin). lia.
  - apply Forall_forall. intros x Hx. apply in_at in Hx as [i Hi].
    assert (Hx : at_ load (a + c + i) x).
    { apply (at_firstn_skipn _ load (length load) (a + c) i x). rewrite firstn_all2 by (rewrite skipn_length; lia). exact Hi. }
    destruct (Qlt_le_dec 6 x) as [L|L]; [|exact L]. exfalso.
    assert (In (a + c + i)%nat (above 0 load)) as Hin by (apply above_in; exists x; rewrite Nat.sub_0_r; auto with arith).
    pose proof (above_sorted_last load 0 a _ Hin) as B. rewrite E in B. fold b in B. unfold c in B. lia.
  - apply above_in in Ba as (x & _ & Hx & Bx). rewrite Nat.sub_0_r in Hx.
    assert (Hk : skipn a load = x :: skipn (S a) load).
    { clear -Hx. revert a Hx. induction load as [|y load IH]; intros [|a] H; unfold at_ in *; cbn in *; try discriminate; [injection H as ->; reflexivity|]. apply IH. exact H. }
    unfold c. replace (b + 1 - a)%nat with (S (b - a)) by lia. rewrite Hk. cbn [firstn]. eauto.
  - apply above_in in Bb as (x & _ & Hx & Bx). rewrite Nat.sub_0_r in Hx. exists x, (firstn (b - a) (skipn a load)). split; [|exact Bx].
    unfold c. replace (b + 1 - a)%nat with (S (b - a)) by lia.
    assert (Hk : at_ (skipn a load) (b - a) x).
    { clear -Hx Hab. replace b with (a + (b - a))%nat in Hx by lia. revert Hx. generalize (b - a)%nat as k. clear Hab b. revert a.
      induction load as [|y load IH]; intros [|a] k H; unfold at_ in *; cbn in *; try (destruct (a + k)%nat; discriminate); try (destruct k; discriminate); auto. }
    clear -Hk. revert Hk. generalize (skipn a load) as l. generalize (b - a)%nat as k. clear. 
    induction k as [|k IH]; intros [|y l] H; unfold at_ in H; cbn in H; try discriminate; [injection H as ->; reflexivity|].
    change (firstn (S (S k)) (y :: l)) with (y :: firstn (S k) l). rewrite (IH l H). reflexivity.
Qed.

Lemma crop_total : forall load, (exists x, In x load /\ 6 < x) <-> exists p, crop load = Ok p.
Proof.
  intro load. unfold crop. split.
  - intros (x & Hx & B). apply in_at in Hx as [i Hi].
    assert (In i (above 0 load)) as Hin by (apply above_in; exists x; rewrite Nat.sub_0_r; auto with arith).
    destruct (above 0 load); [contradiction|]. eauto.
  - intros [p H]. destruct (above 0 load) as [|a t] eqn:E; [discriminate|].
    assert (Ba : In a (above 0 load)) by (rewrite E; left; reflexivity). apply above_in in Ba as (x & _ & Hx & B).
    exists x. split; [eapply at_in; exact Hx|exact B].
Qed.

Lemma crop_err : forall load e, crop load = Err e -> e = IndexError.
Proof. intros load e H. unfold crop in H. destruct (above 0 load); [congruence|discriminate]. Qed.
