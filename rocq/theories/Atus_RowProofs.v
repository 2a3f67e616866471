(** * The lines of one diary. *)

From Coq Require Import List ZArith QArith Bool Lia Arith.
From Verif Require Import Prelude PreludeFacts SpecBase SpecBaseFacts Parse_Model Parse_Spec Parse_Proofs Parse_DurProofs Parse_TpmProofs
  Parse_SemiProofs Parse_GroupProofs Atus_Model Atus_Spec Atus_Proofs Atus_BlockProofs.
Import ListNotations.
Local Open Scope nat_scope.

Set Implicit Arguments.

(** Changes of state from time [s] on, in state [x] before. *)
Fixpoint chg (s x : nat) (r : list nat) : list (nat * nat) :=
  match r with
  | [] => []
  | y :: r' => if y =? x then chg (S s) x r' else (s, y) :: chg (S s) y r'
  end.

Definition blk (r : list nat) : list (nat * nat) := match r with [] => [] | x :: r' => (0, x) :: chg 1 x r' end.

Lemma is_at_true : forall i s r, is_at i s r = true <-> at_ r i s.
Proof.
  intros. unfold is_at, at_. destruct (nth_error r i); split; intro H; try discriminate.
  - apply Nat.eqb_eq in H. congruence.
  - injection H as ->. apply Nat.eqb_refl.
Qed.

Lemma is_at_S : forall i s y r, is_at (S i) s (y :: r) = is_at i s r.
Proof. reflexivity. Qed.
Lemma is_at_0 : forall s y r, is_at 0 s (y :: r) = (y =? s).
Proof. reflexivity. Qed.
Lemma is_at_nil : forall i s, is_at i s [] = false.
Proof. intros [|i] s; reflexivity. Qed.

(** ** Moves *)

Definition three (t a b : nat) (l : nat * nat * nat) : bool := ((fst (fst l) =? t) && (snd (fst l) =? a) && (snd l =? b))%bool.
Definition cnt (t a b : nat) (l : list (nat * nat * nat)) : nat := length (filter (three t a b) l).
Definition bit (b : bool) : nat := if b then 1 else 0.

Lemma cnt_cons : forall t a b x l, cnt t a b (x :: l) = bit (three t a b x) + cnt t a b l.
Proof. intros. unfold cnt. cbn [filter]. destruct (three t a b x); reflexivity. Qed.

Lemma lines3_cnt : forall xs ys zs x y z, lines3 xs ys zs x y z = qn (cnt x y z (zip3 xs ys zs)).
Proof. reflexivity. Qed.

Fixpoint trip (x : nat) (l : list (nat * nat)) : list (nat * nat * nat) :=
  match l with [] => [] | (t, y) :: r => (t, x, y) :: trip y r end.

Lemma zip_trip : forall l x, zip3 (map fst l) (removelast (x :: map snd l)) (map snd l) = trip x l.
Proof.
  unfold zip3. induction l as [|[t y] l IH]; intro x; [reflexivity|].
  change (removelast (x :: map snd ((t, y) :: l))) with (x :: removelast (y :: map snd l)).
  cbn [map fst snd combine trip]. rewrite IH. reflexivity.
Qed.

Lemma trip_count : forall r s x t a b, cnt t a b (trip x (chg s x r)) =
  bit ((s <=? t) && is_at (t - s) b r && is_at (t - s) a (x :: r) && negb (a =? b)).
Proof.
  induction r as [|y r IH]; intros s x t a b.
  - rewrite is_at_nil, andb_false_r. reflexivity.
  - cbn [chg]. destruct (Nat.eqb_spec y x) as [->|Hne].
    + rewrite IH. f_equal. destruct (Nat.leb_spec s t) as [Hs|Hs]; destruct (Nat.leb_spec (S s) t) as [Hs'|Hs']; try lia; try reflexivity.
      * replace (t - s) with (S (t - S s)) by lia. rewrite !is_at_S. reflexivity.
      * replace (t - s) with 0 by lia. rewrite !is_at_0. cbn [andb].
        destruct (Nat.eqb_spec x b), (Nat.eqb_spec x a), (Nat.eqb_spec a b); try reflexivity. lia.
    + cbn [trip]. rewrite cnt_cons, IH. unfold three; cbn [fst snd].
      destruct (Nat.leb_spec s t) as [Hs|Hs]; destruct (Nat.leb_spec (S s) t) as [Hs'|Hs']; try lia.
      * replace (t - s) with (S (t - S s)) by lia. rewrite !is_at_S. destruct (Nat.eqb_spec s t); [lia|]. reflexivity.
      * replace (t - s) with 0 by lia. rewrite !is_at_0. destruct (Nat.eqb_spec s t); [|lia]. cbn [andb bit].
        rewrite Nat.add_0_r. f_equal. destruct (Nat.eqb_spec x a), (Nat.eqb_spec y b), (Nat.eqb_spec a b); try reflexivity. lia.
      * destruct (Nat.eqb_spec s t); [lia|]. reflexivity.
Qed.

Lemma chg_last : forall r s x d, last (x :: map snd (chg s x r)) d = last (x :: r) d.
Proof.
  induction r as [|y r IH]; intros s x d; [reflexivity|]. cbn [chg]. destruct (Nat.eqb_spec y x) as [->|Hne].
  - rewrite IH. destruct r; reflexivity.
  - cbn [map snd]. change (last (x :: y :: map snd (chg (S s) y r)) d) with (last (y :: map snd (chg (S s) y r)) d). rewrite IH. reflexivity.
Qed.

(** The moves listed for one diary. *)
Definition row_moves (r : list nat) : list (nat * nat * nat) := zip3 (map fst (blk r)) (olds_of (blk r)) (map snd (blk r)).

Lemma is_at_last : forall r a d, r <> [] -> is_at (length r - 1) a r = (last r d =? a).
Proof. intros r a d H. unfold is_at. rewrite (nth_last d) by auto. reflexivity. Qed.

Lemma row_moves_count : forall r n t a b, length r = n -> 0 < n ->
  cnt t a b (row_moves r) = bit (leaves n t a r && is_at t b r).
Proof.
  intros [|x r] n t a b L Hn; simpl in L; [lia|]. unfold row_moves, olds_of, blk. cbn [map fst snd].
  rewrite chg_last. change (zip3 (0 :: map fst (chg 1 x r)) (last (x :: r) 0 :: removelast (x :: map snd (chg 1 x r))) (x :: map snd (chg 1 x r)))
    with ((0, last (x :: r) 0, x) :: zip3 (map fst (chg 1 x r)) (removelast (x :: map snd (chg 1 x r))) (map snd (chg 1 x r))).
  rewrite zip_trip, cnt_cons, trip_count. unfold three, leaves; cbn [fst snd].
  destruct t as [|t].
  - cbn [Nat.eqb Nat.leb andb bit before orb]. rewrite Nat.add_0_r, andb_true_r. rewrite <- L, <- (@is_at_last (x :: r) a 0) by discriminate. reflexivity.
  - cbn [Nat.eqb andb bit before orb]. replace (1 <=? S t) with true by reflexivity. replace (S t - 1) with t by lia. cbn [andb Nat.add].
    apply f_equal. rewrite !is_at_S. destruct (is_at t a (x :: r)) eqn:E1; [|rewrite andb_false_r; reflexivity].
    destruct (is_at t b r) eqn:E2; [|rewrite andb_false_r; reflexivity]. cbn [andb]. rewrite andb_true_r. apply f_equal.
    apply is_at_true in E2. unfold is_at, at_ in *. rewrite E2. apply Nat.eqb_sym.
Qed.

Lemma chg_lens : forall b, length (olds_of b) = length (map fst b) \/ b = [].
Proof.
  intros [|x b]; [right; auto|left]. unfold olds_of. cbn [length]. rewrite map_length.
  assert (G : forall A (l : list A), l <> [] -> S (length (removelast l)) = length l).
  { intros A l H. destruct (exists_last H) as (l0 & y & ->). rewrite removelast_last, app_length. simpl. lia. }
  rewrite G by discriminate. rewrite map_length. reflexivity.
Qed.

(** ** Runs *)

Lemma run_le : forall q l, run_length q l <= length l.
Proof. induction l as [|y l IH]; simpl; auto. destruct (q =? y); lia. Qed.

Lemma run_stop : forall q l m, run_length q l < length l -> run_length q (l ++ m) = run_length q l.
Proof.
  induction l as [|y l IH]; intros m H; simpl in *; [lia|]. destruct (q =? y); auto. rewrite IH by lia. auto.
Qed.

Lemma run_all : forall q l m, run_length q l = length l -> run_length q (l ++ m) = length l + run_length q m.
Proof.
  induction l as [|y l IH]; intros m H; simpl in *; auto. destruct (q =? y); [|discriminate]. rewrite IH by lia. auto.
Qed.

Lemma run_at : forall q l j, j < run_length q l -> at_ l j q.
Proof.
  induction l as [|y l IH]; intros j H; simpl in H; [lia|]. destruct (Nat.eqb_spec q y) as [<-|]; [|lia].
  destruct j as [|j]; [reflexivity|]. apply (IH j). lia.
Qed.

Lemma run_head : forall r s x, chg s x r = [] /\ run_length x r = length r \/
  exists y l, chg s x r = (s + run_length x r, y) :: l /\ run_length x r < length r.
Proof.
  induction r as [|y r IH]; intros s x; [left; auto|]. cbn [chg run_length length]. rewrite (Nat.eqb_sym x y).
  destruct (Nat.eqb_spec y x) as [->|].
  - destruct (IH (S s) x) as [[E1 E2]|(y' & l & E1 & E2)]; [left; split; auto|right]. exists y', l. rewrite E1. split; [|lia]. replace (s + S (run_length x r)) with (S s + run_length x r) by lia. reflexivity.
  - right. exists y, (chg (S s) y r). rewrite Nat.add_0_r. split; auto. lia.
Qed.

(** ** Stays *)

Fixpoint its (e : nat) (fl : bool) (t0 x s : nat) (r : list nat) : list (nat * nat * nat) :=
  match r with
  | [] => if fl then [(t0, x, e - t0)] else []
  | y :: r' => if y =? x then its e fl t0 x (S s) r' else (t0, x, s - t0) :: its e fl s y (S s) r'
  end.

Lemma stays_its : forall r e fl t0 x s,
  let l := (t0, x) :: chg s x r in
  compress (repeat true (length l - 1) ++ [fl]) (zip3 (map fst l) (map snd l) (map2 Nat.sub (tl (map fst l) ++ [e]) (map fst l))) = its e fl t0 x s r.
Proof.
  induction r as [|y r IH]; intros e fl t0 x s; cbv zeta.
  - cbn. destruct fl; reflexivity.
  - cbn [chg its]. destruct (Nat.eqb_spec y x) as [->|Hne]; [apply (IH e fl t0 x (S s))|].
    specialize (IH e fl s y (S s)). cbv zeta in IH. rewrite <- IH. clear IH.
    cbn [length map fst snd tl app map2]. replace (S (S (length (chg (S s) y r))) - 1) with (S (length (chg (S s) y r))) by lia.
    replace (S (length (chg (S s) y r)) - 1) with (length (chg (S s) y r)) by lia. reflexivity.
Qed.

Lemma its_count : forall r e fl t0 x s t q d, t0 < s -> cnt t q d (its e fl t0 x s r) =
  bit ((t0 =? t) && (x =? q) && (if run_length x r <? length r then d =? s + run_length x r - t0 else fl && (d =? e - t0))) +
  bit ((s <=? t) && is_at (t - s) q r && negb (is_at (t - s) q (x :: r)) &&
       (if t - s + run_length q (skipn (t - s) r) <? length r then d =? run_length q (skipn (t - s) r) else fl && (d =? e - t))).
Proof.
  induction r as [|y r IH]; intros e fl t0 x s t q d Ht.
  - rewrite is_at_nil, andb_false_r. cbn [its run_length length Nat.ltb Nat.leb andb bit].
    destruct fl; cbn [cnt filter andb]; [|rewrite andb_false_r; reflexivity].
    rewrite cnt_cons. unfold three; cbn [fst snd]. unfold cnt. cbn [filter length]. rewrite Nat.add_0_r. f_equal. rewrite (Nat.eqb_sym d). cbn [bit]. lia.
  - cbn [its]. destruct (Nat.eqb_spec y x) as [->|Hne].
    + rewrite IH by lia. f_equal.
      * f_equal. f_equal. cbn [run_length length]. rewrite Nat.eqb_refl.
        replace (S (run_length x r) <? S (length r)) with (run_length x r <? length r) by reflexivity.
        replace (s + S (run_length x r) - t0) with (S s + run_length x r - t0) by lia. reflexivity.
      * f_equal. destruct (Nat.leb_spec s t) as [Hs|Hs]; destruct (Nat.leb_spec (S s) t) as [Hs'|Hs']; try lia; try reflexivity.
        -- replace (t - s) with (S (t - S s)) by lia. rewrite !is_at_S. reflexivity.
        -- replace (t - s) with 0 by lia. rewrite !is_at_0. destruct (x =? q); reflexivity.
    + rewrite cnt_cons, IH by lia. unfold three; cbn [fst snd].
      assert (E0 : run_length x (y :: r) = 0). { cbn [run_length]. destruct (Nat.eqb_spec x y); [congruence|auto]. }
      rewrite E0. cbn [length]. replace (0 <? S (length r)) with true by reflexivity. rewrite Nat.add_0_r. rewrite (Nat.eqb_sym (s - t0) d). f_equal.
      destruct (Nat.leb_spec s t) as [Hs|Hs]; destruct (Nat.leb_spec (S s) t) as [Hs'|Hs']; try lia.
      * replace (t - s) with (S (t - S s)) by lia. rewrite !is_at_S. destruct (Nat.eqb_spec s t); [lia|]. reflexivity.
      * replace (t - s) with 0 by lia. destruct (Nat.eqb_spec s t) as [<-|]; [|lia]. rewrite !is_at_0. cbn [andb bit skipn]. rewrite Nat.add_0_r. f_equal.
        destruct (Nat.eqb_spec y q) as [<-|]; [|reflexivity]. destruct (Nat.eqb_spec x y); [congruence|]. cbn [andb negb run_length]. rewrite Nat.eqb_refl.
        replace (0 + S (run_length y r) <? S (length r)) with (run_length y r <? length r) by reflexivity.
        replace (S s + run_length y r - s) with (S (run_length y r)) by lia. reflexivity.
      * destruct (Nat.eqb_spec s t); [lia|]. reflexivity.
Qed.

(** The stays listed for one diary. *)
Definition row_stays (n : nat) (r : list nat) : list (nat * nat * nat) :=
  compress (flags_of (blk r)) (zip3 (map fst (blk r)) (map snd (blk r)) (durs_of n (blk r))).

Lemma row_stays_count : forall r n t q d, length r = n -> 0 < n ->
  cnt t q d (row_stays n r) = bit (stay_begins t q r && stay_known n t q r && (stay_length n t q r =? d)).
Proof.
  intros [|x r] n t q d L Hn; simpl in L; [lia|].
  set (fl := x =? last (x :: r) 0). set (e := n + (if run_length x r <? length r then S (run_length x r) else 0)).
  assert (E : row_stays n (x :: r) = its e fl 0 x 1 r).
  { unfold row_stays, flags_of, durs_of, blk. cbn [map snd hd]. rewrite chg_last. fold fl.
    rewrite <- (stays_its r e fl 0 x 1). cbv zeta. do 4 f_equal. cbn [map fst tl]. f_equal. f_equal. unfold e, second.
    destruct (run_head r 1 x) as [[E1 E2]|(y & l & E1 & E2)]; rewrite E1; cbn [map fst length Nat.eqb nth].
    - rewrite (proj2 (Nat.ltb_ge _ _)) by lia. reflexivity.
    - rewrite (proj2 (Nat.ltb_lt _ _)) by lia. reflexivity. }
  rewrite E, its_count by lia. unfold stay_begins, stay_known, stay_length. pose proof (run_le x r) as Rx.
  destruct t as [|t].
  - cbn [Nat.leb andb bit]. rewrite Nat.add_0_r. rewrite !is_at_0. cbn [Nat.eqb orb andb skipn]. rewrite andb_true_r. f_equal.
    destruct (Nat.eqb_spec x q) as [<-|]; [|reflexivity]. cbn [andb]. rewrite orb_true_r. cbn [andb].
    assert (Er : run_length x (x :: r) = S (run_length x r)) by (cbn [run_length]; rewrite Nat.eqb_refl; auto).
    destruct (Nat.ltb_spec (run_length x r) (length r)) as [Hlt|Hge].
    + rewrite run_stop by (rewrite Er; simpl; lia). rewrite Er, Nat.min_r by lia. rewrite (Nat.eqb_sym d). f_equal.
    + rewrite run_all by (rewrite Er; simpl; lia). rewrite Nat.min_l by (simpl; lia).
      assert (Hl : last (x :: r) 0 = x).
      { assert (Ha : at_ (x :: r) (length (x :: r) - 1) x) by (apply run_at; rewrite Er; simpl; lia).
        unfold at_ in Ha. rewrite (nth_last 0) in Ha by discriminate. congruence. }
      unfold fl. rewrite Hl, Nat.eqb_refl. cbn [andb]. rewrite (Nat.eqb_sym d). f_equal. unfold e.
      try rewrite (proj2 (Nat.ltb_ge _ _)) by lia. lia.
  - replace (1 <=? S t) with true by reflexivity. cbn [Nat.eqb andb bit orb Nat.add]. rewrite is_at_S. replace (S t - 1) with t by lia. cbn [skipn].
    f_equal. destruct (is_at t q r) eqn:E1; [|reflexivity]. cbn [andb].
    destruct (is_at t q (x :: r)) eqn:E2; [reflexivity|]. cbn [negb andb].
    set (w := run_length q (skipn t r)). rewrite !is_at_0.
    assert (Ht : t < length r) by (apply is_at_true in E1; eapply at_lt; eauto).
    assert (Lw : length (skipn t r) = length r - t) by apply skipn_length. pose proof (run_le q (skipn t r)) as Rw. fold w in Rw.
    destruct (Nat.ltb_spec (t + w) (length r)) as [Hlt|Hge].
    + rewrite (proj2 (Nat.ltb_lt (S (t + w)) n)) by lia. cbn [orb andb]. rewrite run_stop by (fold w; lia). fold w.
      rewrite Nat.min_r by lia. apply Nat.eqb_sym.
    + rewrite (proj2 (Nat.ltb_ge (S (t + w)) n)) by lia. cbn [orb]. rewrite run_all by (fold w; lia). rewrite Lw.
      assert (Hl : last (x :: r) 0 = q).
      { assert (Ha : at_ (skipn t r) (length r - t - 1) q) by (apply run_at; fold w; lia).
        assert (Hb : at_ (x :: r) (length (x :: r) - 1) q).
        { unfold at_ in *. cbn [length]. replace (S (length r) - 1) with (S (length r - 1)) by lia. cbn [nth_error].
          rewrite <- (firstn_skipn t r), nth_error_app2; rewrite firstn_length_le by lia; [|rewrite firstn_skipn; lia].
          rewrite firstn_skipn. replace (length r - 1 - t) with (length r - t - 1) by lia. auto. }
        unfold at_ in Hb. rewrite (nth_last 0) in Hb by discriminate. congruence. }
      unfold fl. rewrite Hl. destruct (Nat.eqb_spec x q) as [Hx|]; [|reflexivity]. cbn [andb]. rewrite <- Hx in E2 |- *.
      assert (Er : run_length x (x :: r) = S (run_length x r)) by (cbn [run_length]; rewrite Nat.eqb_refl; auto). rewrite Er.
      assert (Hrun : S (run_length x r) <= t).
      { destruct (le_lt_dec (S (run_length x r)) t) as [|Hgt]; auto. exfalso.
        assert (Ha : at_ (x :: r) t x) by (apply run_at; rewrite Er; lia). apply is_at_true in Ha. congruence. }
      unfold e. rewrite (proj2 (Nat.ltb_lt (run_length x r) (length r))) by lia. rewrite Nat.min_r by lia. rewrite (Nat.eqb_sym d). f_equal. lia.
Qed.
