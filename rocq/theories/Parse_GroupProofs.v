(** * Proofs about household transitions and secondary activities. *)

From Coq Require Import List ZArith QArith Bool Lia Arith.
From Verif Require Import Prelude PreludeFacts SpecBase SpecBaseFacts Parse_Model Parse_Spec Parse_Proofs Parse_DurProofs Parse_TpmProofs Parse_SemiProofs.
Import ListNotations.

Set Implicit Arguments.

Lemma order5 : total_order cmp5.
Proof. apply pair_order; [apply order4|apply nat_order]. Qed.

Lemma take_at_ok : forall A (arr : list A) ps out, take_at arr ps = Ok out ->
  length out = length ps /\ forall k p, at_ ps k p -> nth_error out k = nth_error arr p.
Proof.
  unfold take_at. induction ps as [|p ps IH]; intros out H; simpl in H.
  - injection H as <-. split; auto. intros [|k] q Hq; discriminate.
  - destruct (nth_error arr p) as [x|] eqn:E; simpl in H; [|discriminate].
    destruct (mapM _ ps) as [o|] eqn:Eo; simpl in H; [|discriminate]. injection H as <-.
    destruct (IH o eq_refl) as [L V]. split; [simpl; auto|]. intros [|k] q Hq; simpl in Hq; [injection Hq as <-; simpl; auto|].
    simpl. apply V. auto.
Qed.

Lemma take_at_total : forall A (arr : list A) ps, (forall p, In p ps -> (p < length arr)%nat) -> exists out, take_at arr ps = Ok out.
Proof.
  intros A arr ps H. unfold take_at. induction ps as [|p ps IH]; simpl; eauto.
  destruct (lt_at _ arr p) as [x Hx]; [apply H; left; auto|]. unfold at_ in Hx. rewrite Hx. simpl.
  destruct IH as [o ->]; [intros; apply H; right; auto|]. simpl. eauto.
Qed.

Lemma take_at_err : forall A (arr : list A) ps p, In p ps -> (length arr <= p)%nat -> take_at arr ps = Err IndexError.
Proof.
  intros A arr ps p H Hp. unfold take_at. induction ps as [|q ps IH]; [destruct H|]. simpl.
  destruct (nth_error arr q) as [x|] eqn:E; simpl; auto. destruct H as [->|H].
  - apply nth_error_None in Hp. congruence.
  - rewrite IH by auto. reflexivity.
Qed.

Lemma combine_nth_error : forall A B (xs : list A) (ys : list B) k, nth_error (combine xs ys) k =
  match nth_error xs k, nth_error ys k with Some x, Some y => Some (x, y) | _, _ => None end.
Proof.
  induction xs as [|x xs IH]; intros [|y ys] [|k]; simpl; auto. destruct (nth_error xs k); auto.
Qed.

(** Counting positions. *)
Lemma filter_positions : forall A (f : A -> bool) l,
  length (filter f l) = length (filter (fun k => match nth_error l k with Some x => f x | None => false end) (seq 0 (length l))).
Proof.
  intros A f l.
  assert (G : forall m s, length (filter (fun k => match nth_error m (k - s) with Some x => f x | None => false end) (seq s (length m))) = length (filter f m)).
  { induction m as [|x m IH]; intro s; simpl; auto. rewrite Nat.sub_diag. simpl.
    assert (E : length (filter (fun k => match nth_error (x :: m) (k - s) with Some x => f x | None => false end) (seq (S s) (length m))) = length (filter f m)).
    { rewrite <- (IH (S s)). apply filter_ext_length. intros k Hk. apply in_seq in Hk.
      replace (k - s)%nat with (S (k - S s)) by lia. reflexivity. }
    destruct (f x); simpl; rewrite E; auto. }
  rewrite <- (G l 0%nat). apply filter_ext_length. intros k _. rewrite Nat.sub_0_r. auto.
Qed.

Lemma nodup_same_length : forall A (l l' : list A), NoDup l -> NoDup l' -> (forall x, In x l <-> In x l') -> length l = length l'.
Proof. intros A l l' H H' E. apply Nat.le_antisymm; apply NoDup_incl_length; auto; intros x Hx; apply E; auto. Qed.

Lemma nodup_map_on : forall A B (f : A -> B) l, NoDup l -> (forall x y, In x l -> In y l -> f x = f y -> x = y) -> NoDup (map f l).
Proof.
  induction l as [|a l IH]; intros H Hf; simpl; [constructor|]. inversion H; subst. constructor.
  - intro Hin. apply in_map_iff in Hin. destruct Hin as (y & E & Hy). assert (y = a) by (apply Hf; auto; [right; auto|left; auto]). subst; contradiction.
  - apply IH; auto. intros; apply Hf; auto; right; auto.
Qed.

Lemma group_spec : forall t households days, full (width t) (rows t) -> (0 < width t)%nat ->
  (length (rows t) <= length households)%nat -> (length (rows t) <= length days)%nat ->
  exists out, group_hh_transitions None t households days = Ok out /\
    NoDup (map fst out) /\
    (forall i new old h d c, In ((i, new, old, h, d), c) out <->
       (0 < c)%nat /\ (i < width t)%nat /\ new <> old /\ c = household_moves (width t) (rows t) households days i new old h d).
Proof.
  intros t hs dys Hf Hw Lh Ld. apply rectangular_full in Hf as Hr. unfold group_hh_transitions.
  destruct (@transitions_exact _ Nat.eqb Nat.eqb_eq t Hf Hw) as (tr & Etr & (L1 & L2 & L3 & X & Lex)). rewrite Etr. cbn [bind].
  assert (Hps : forall p, In p (tr_persons tr) -> (p < length (rows t))%nat).
  { intros p Hp. apply in_at in Hp. destruct Hp as [k Hk]. pose proof (at_lt _ _ _ _ Hk) as Lk.
    destruct (lt_at _ (tr_times tr) k) as [i Hi]; [lia|]. destruct (lt_at _ (tr_new tr) k) as [new Hn]; [lia|]. destruct (lt_at _ (tr_old tr) k) as [old Ho]; [lia|].
    destruct (proj1 (X i p new old)) as [[(r & Hr' & _) _] _]; [exists k; repeat split; auto|]. eapply at_lt; eauto. }
  destruct (@take_at_total _ hs (tr_persons tr)) as [hh Eh]; [intros p Hp; apply Hps in Hp; lia|].
  destruct (@take_at_total _ dys (tr_persons tr)) as [dd Ed]; [intros p Hp; apply Hps in Hp; lia|].
  rewrite Eh. cbn [bind]. rewrite Ed. cbn [bind].
  apply take_at_ok in Eh, Ed. destruct Eh as [Lhh Vh], Ed as [Ldd Vd].
  set (z := zip5 (tr_times tr) (tr_new tr) (tr_old tr) hh dd). exists (uniq_counts cmp5 z). split; auto.
  assert (Lz : length z = length (tr_times tr)) by (unfold z, zip5; rewrite !combine_length; lia).
  assert (Hz : forall k i new old h d, nth_error z k = Some (i, new, old, h, d) <->
     at_ (tr_times tr) k i /\ at_ (tr_new tr) k new /\ at_ (tr_old tr) k old /\ at_ hh k h /\ at_ dd k d).
  { intros k i new old h d. unfold z, zip5, at_. rewrite !combine_nth_error.
    destruct (nth_error (tr_times tr) k), (nth_error (tr_new tr) k), (nth_error (tr_old tr) k), (nth_error hh k), (nth_error dd k);
      split; intro H; try discriminate; try (destruct H as (?&?&?&?&?); discriminate).
    - injection H as -> -> -> -> ->. auto 6.
    - destruct H as (H1 & H2 & H3 & H4 & H5). congruence. }
  assert (Hcount : forall i new old h d, (i < width t)%nat -> new <> old ->
     count_of cmp5 (i, new, old, h, d) z = household_moves (width t) (rows t) hs dys i new old h d).
  { intros i new old h d Hi Hne. unfold count_of. rewrite filter_positions. unfold household_moves.
    set (test := fun k => match nth_error z k with Some x => is_eq cmp5 (i, new, old, h, d) x | None => false end).
    assert (Htest : forall k, test k = true <-> nth_error z k = Some (i, new, old, h, d)).
    { intro k. unfold test. destruct (nth_error z k) as [x|]; [|split; discriminate]. rewrite (is_eq_iff order5). split; congruence. }
    transitivity (length (map (fun k => nth k (tr_persons tr) 0%nat) (filter test (seq 0 (length z))))); [rewrite map_length; auto|].
    assert (Hper : forall k, In k (filter test (seq 0 (length z))) -> at_ (tr_persons tr) k (nth k (tr_persons tr) 0%nat)).
    { intros k Hk. apply filter_In in Hk. destruct Hk as [Hk _]. apply in_seq in Hk. apply nth_error_nth'. lia. }
    apply nodup_same_length.
    - apply nodup_map_on; [apply NoDup_filter, seq_NoDup|]. intros k k' Hk Hk' E.
      pose proof (Hper k Hk) as P. pose proof (Hper k' Hk') as P'.
      apply filter_In in Hk, Hk'. destruct Hk as [_ Hk], Hk' as [_ Hk']. apply Htest, Hz in Hk. apply Htest, Hz in Hk'.
      destruct Hk as [T _], Hk' as [T' _].
      destruct (Nat.lt_trichotomy k k') as [Hlt|[|Hlt]]; auto; exfalso.
      + specialize (Lex k k' _ _ _ _ Hlt T T' P P'). lia.
      + specialize (Lex k' k _ _ _ _ Hlt T' T P' P). lia.
    - apply NoDup_filter, seq_NoDup.
    - intro p. rewrite filter_In, in_seq, in_map_iff. split.
      + intros (k & <- & Hk). pose proof (Hper k Hk) as P. apply filter_In in Hk. destruct Hk as [_ Hk]. apply Htest, Hz in Hk.
        destruct Hk as (T1 & T2 & T3 & T4 & T5). set (p := nth k (tr_persons tr) 0%nat) in *.
        assert (Hch : changes (width t) (rows t) i p new old) by (apply X; exists k; repeat split; auto).
        destruct Hch as [[(r & Hr1 & Hi1) (r' & Hr2 & Hi2)] _]. assert (r' = r) by (unfold at_ in *; congruence). subst r'.
        split; [pose proof (at_lt _ _ _ _ Hr1); lia|].
        unfold at_ in *. rewrite Hr1, <- (Vh k p P), T4, <- (Vd k p P), T5. unfold is_at. rewrite Hi1, Hi2, !Nat.eqb_refl. auto.
      + intros [Hp Htp]. destruct (nth_error (rows t) p) as [r|] eqn:Er; [|discriminate].
        destruct (nth_error hs p) as [h'|] eqn:Eh'; [|discriminate]. destruct (nth_error dys p) as [d'|] eqn:Ed'; [|discriminate].
        apply andb_true_iff in Htp. destruct Htp as [Htp H4]. apply andb_true_iff in Htp. destruct Htp as [Htp H3].
        apply andb_true_iff in Htp. destruct Htp as [H1 H2]. apply Nat.eqb_eq in H3, H4. subst h' d'.
        unfold is_at in H1, H2. destruct (nth_error r i) as [x1|] eqn:E1; [|discriminate]. destruct (nth_error r (before (width t) i)) as [x2|] eqn:E2; [|discriminate].
        apply Nat.eqb_eq in H1, H2. subst x1 x2.
        destruct (proj2 (X i p new old)) as (k & T1 & T2 & T3 & T4). { split; auto. split; exists r; auto. }
        exists k. unfold at_ in T2. split; [apply nth_error_nth; auto|]. apply filter_In. split; [apply in_seq; pose proof (at_lt _ _ _ _ T1); lia|].
        apply Htest, Hz. repeat split; auto; unfold at_; [rewrite (Vh k p T2)|rewrite (Vd k p T2)]; auto. }
  split.
  - unfold uniq_counts. rewrite map_map. simpl. rewrite map_id. apply uniq_nodup. apply order5.
  - intros i new old h d c. unfold uniq_counts. rewrite in_map_iff. split.
    + intros (x & E & Hx). injection E as -> <-. rewrite (uniq_in order5) in Hx.
      pose proof Hx as Hin. apply in_at in Hx. destruct Hx as [k Hk]. apply Hz in Hk. destruct Hk as (T1 & T2 & T3 & T4 & T5).
      pose proof (at_lt _ _ _ _ T1) as Lk. destruct (lt_at _ (tr_persons tr) k) as [p Hp]; [lia|].
      destruct (proj1 (X i p new old)) as [[G _] Hne]; [exists k; repeat split; auto|].
      assert (Hi : (i < width t)%nat) by (eapply diary_lt; eauto). split; [|split; [|split]]; auto.
      unfold count_of. assert (G2 : In (i, new, old, h, d) (filter (is_eq cmp5 (i, new, old, h, d)) z)).
      { apply filter_In. split; auto. apply (is_eq_iff order5). auto. }
      destruct (filter _ z); [destruct G2|simpl; lia].
    + intros (Hc & Hi & Hne & ->). rewrite <- Hcount in * by auto. exists (i, new, old, h, d). split; auto.
      rewrite (uniq_in order5). unfold count_of in Hc. destruct (filter (is_eq cmp5 (i, new, old, h, d)) z) as [|y l] eqn:E; [simpl in Hc; lia|].
      assert (G : In y (filter (is_eq cmp5 (i, new, old, h, d)) z)) by (rewrite E; left; auto).
      apply filter_In in G. destruct G as [G1 G2]. apply (is_eq_iff order5) in G2. subst. auto.
Qed.

Lemma group_short : forall t households days p i new old, full (width t) (rows t) ->
  changes (width t) (rows t) i p new old -> (length households <= p)%nat ->
  group_hh_transitions None t households days = Err IndexError.
Proof.
  intros t hs dys p i new old Hf Hch Hp. apply rectangular_full in Hf as Hr.
  assert (Hw : (0 < width t)%nat) by (destruct Hch as [[G _] _]; apply (diary_lt _ Hr) in G; lia).
  unfold group_hh_transitions.
  destruct (@transitions_exact _ Nat.eqb Nat.eqb_eq t Hf Hw) as (tr & Etr & (L1 & L2 & L3 & X & Lex)). rewrite Etr. cbn [bind].
  apply X in Hch. destruct Hch as (k & _ & Hk & _). rewrite (@take_at_err _ hs (tr_persons tr) p); auto. eapply at_in; eauto.
Qed.

(** ** Secondary activities *)

Section Secondary.
  Variables (A : Type) (eqb : A -> A -> bool).
  Hypothesis eqb_eq : forall x y, eqb x y = true <-> x = y.

  Lemma gone_mask_at : forall old p s k, length old = length p -> length s = length p ->
    (nth_error (gone_mask eqb old p s) k = Some true <->
     exists o x y, nth_error old k = Some o /\ nth_error p k = Some x /\ nth_error s k = Some y /\ o <> x /\ o <> y).
  Proof.
    intros old p s k H1 H2. unfold gone_mask. rewrite (map2_nth).
    rewrite combine_nth_error. split.
    - destruct (nth_error old k) as [o|], (nth_error p k) as [x|], (nth_error s k) as [y|]; try discriminate.
      simpl. intro E. injection E as E. apply andb_true_iff in E. destruct E as [E1 E2]. apply negb_true_iff in E1, E2.
      exists o, x, y. repeat split; auto; intro; subst; [rewrite (proj2 (eqb_eq x x)) in E1 by auto|rewrite (proj2 (eqb_eq y y)) in E2 by auto]; discriminate.
    - intros (o & x & y & -> & -> & -> & N1 & N2). simpl. f_equal. apply andb_true_iff. split; apply negb_true_iff.
      + destruct (eqb o x) eqn:E; auto. apply eqb_eq in E. contradiction.
      + destruct (eqb o y) eqn:E; auto. apply eqb_eq in E. contradiction.
  Qed.

  Lemma gone_mask_length : forall old p s, length old = length p -> length s = length p -> length (gone_mask eqb old p s) = length p.
  Proof. intros. unfold gone_mask. rewrite map2_length, combine_length. lia. Qed.

  Lemma where_from_in : forall m i p, In p (where_from i m) <-> exists k, p = (i + k)%nat /\ nth_error m k = Some true.
  Proof.
    induction m as [|b m IH]; intros i p; simpl.
    - split; [intros []|intros ([|k] & _ & H); discriminate].
    - destruct b; simpl; rewrite IH; split.
      + intros [<-|(k & -> & H)]; [exists 0%nat; split; auto; lia|exists (S k); split; auto; lia].
      + intros ([|k] & -> & H); [left; lia|right; exists k; split; auto; lia].
      + intros (k & -> & H). exists (S k). split; auto; lia.
      + intros ([|k] & -> & H); [discriminate|exists k; split; auto; lia].
  Qed.

  Lemma where_true_in : forall m p, In p (where_true m) <-> nth_error m p = Some true.
  Proof.
    intros m p. unfold where_true. rewrite where_from_in. split; [intros (k & -> & H); auto|intro H; exists p; auto].
  Qed.

  Lemma compress_pair_in : forall (m : list bool) (a b : list A) x y, length a = length m -> length b = length m ->
    (In (x, y) (combine (compress m a) (compress m b)) <-> exists k, nth_error m k = Some true /\ nth_error a k = Some x /\ nth_error b k = Some y).
  Proof.
    induction m as [|c m IH]; intros [|u a] [|v b] x y H1 H2; simpl in *; try discriminate.
    - split; [intros []|intros ([|k] & H & _); discriminate].
    - destruct c; simpl; rewrite IH by lia; split.
      + intros [E|(k & H)]; [injection E as -> ->; exists 0%nat; auto|exists (S k); auto].
      + intros ([|k] & Hk & Ha & Hb); simpl in *; [left; congruence|right; exists k; auto].
      + intros (k & H). exists (S k); auto.
      + intros ([|k] & Hk & Ha & Hb); simpl in *; [discriminate|exists k; auto].
  Qed.

  Definition sized2 (tr : trans A) : Prop :=
    length (tr_persons tr) = length (tr_times tr) /\ length (tr_new tr) = length (tr_times tr) /\ length (tr_old tr) = length (tr_times tr).

  Lemma combine_app_in : forall X Y (a a' : list X) (b b' : list Y) z, length a = length b ->
    (In z (combine (a ++ a') (b ++ b')) <-> In z (combine a b) \/ In z (combine a' b')).
  Proof. intros. rewrite combine_app by auto. rewrite in_app_iff. tauto. Qed.

  Lemma repeat_combine_in : forall X (i : nat) n (l : list X) j x, length l = n -> (In (j, x) (combine (repeat i n) l) <-> j = i /\ In x l).
  Proof.
    intros X i n l j x <-. induction l as [|y l IH]; simpl; [tauto|]. rewrite IH. split.
    - intros [E|[-> H]]; [injection E as <- <-; auto|auto].
    - intros [-> [->|H]]; auto.
  Qed.

  Lemma step2_spec : forall i oldp olds p s, length oldp = length p -> length olds = length p -> length s = length p ->
    let tr := step_trans2 eqb i oldp olds p s in
    sized2 tr /\
    (forall j q, In (j, q) (combine (tr_times tr) (tr_persons tr)) <->
       j = i /\ exists o x y, (nth_error oldp q = Some o \/ nth_error olds q = Some o) /\ nth_error p q = Some x /\ nth_error s q = Some y /\ o <> x /\ o <> y) /\
    (forall j new old, In (j, (new, old)) (combine (tr_times tr) (combine (tr_new tr) (tr_old tr))) <->
       j = i /\ exists q x y, nth_error p q = Some x /\ nth_error s q = Some y /\ old <> x /\ old <> y /\
         (nth_error oldp q = Some old /\ new = x \/ nth_error olds q = Some old /\ new = y)).
  Proof.
    intros i oldp olds p s H1 H2 H3 tr. unfold tr, step_trans2; simpl.
    set (mp := gone_mask eqb oldp p s). set (ms := gone_mask eqb olds p s).
    assert (Lp : length mp = length p) by (apply gone_mask_length; auto).
    assert (Ls : length ms = length p) by (apply gone_mask_length; auto).
    assert (Cp : forall X (l : list X), length l = length p -> length (compress mp l) = count_true mp) by (intros; apply compress_length; lia).
    assert (Cs : forall X (l : list X), length l = length p -> length (compress ms l) = count_true ms) by (intros; apply compress_length; lia).
    assert (Wp : length (where_true mp) = count_true mp) by apply where_from_length.
    assert (Ws : length (where_true ms) = count_true ms) by apply where_from_length.
    split; [|split].
    - unfold sized2; simpl. rewrite !app_length, repeat_length, Wp, Ws, !Cp, !Cs by auto. lia.
    - intros j q. rewrite repeat_combine_in by (rewrite app_length, Wp, Ws; lia). rewrite in_app_iff, !where_true_in.
      unfold mp, ms. rewrite !gone_mask_at by auto. split.
      + intros [-> [(o & x & y & E1 & E2 & E3 & N)|(o & x & y & E1 & E2 & E3 & N)]]; split; auto; exists o, x, y; tauto.
      + intros [-> (o & x & y & [E|E] & R)]; split; auto; [right|left]; exists o, x, y; tauto.
    - intros j new old. rewrite combine_app by (rewrite !Cp by auto; auto).
      rewrite repeat_combine_in by (rewrite app_length, !combine_length, !Cp, !Cs by auto; lia).
      rewrite in_app_iff, !compress_pair_in by lia. unfold mp, ms. split.
      + intros [-> [(q & E1 & E2 & E3)|(q & E1 & E2 & E3)]]; split; auto; apply gone_mask_at in E1; auto;
          destruct E1 as (o & x & y & F1 & F2 & F3 & N1 & N2); exists q, x, y; assert (o = old) by congruence; subst o; repeat split; auto.
        * left. split; congruence.
        * right. split; congruence.
      + intros [-> (q & x & y & E1 & E2 & N1 & N2 & [[E3 ->]|[E3 ->]])]; split; auto; [left|right]; exists q; repeat split; auto;
          apply gone_mask_at; auto; exists old, x, y; auto.
  Qed.

  Lemma all2_spec : forall cols i oldp olds N, length oldp = N -> length olds = N ->
    (forall p s, In (p, s) cols -> length p = N /\ length s = N) ->
    let tr := all_trans2 eqb i oldp olds cols in
    sized2 tr /\
    (forall j q, In (j, q) (combine (tr_times tr) (tr_persons tr)) <->
       exists k pr sr p s, j = (i + k)%nat /\ nth_error ((oldp, olds) :: cols) k = Some (pr, sr) /\ nth_error cols k = Some (p, s) /\
         exists o x y, (nth_error pr q = Some o \/ nth_error sr q = Some o) /\ nth_error p q = Some x /\ nth_error s q = Some y /\ o <> x /\ o <> y) /\
    (forall j new old, In (j, (new, old)) (combine (tr_times tr) (combine (tr_new tr) (tr_old tr))) <->
       exists k pr sr p s, j = (i + k)%nat /\ nth_error ((oldp, olds) :: cols) k = Some (pr, sr) /\ nth_error cols k = Some (p, s) /\
         exists q x y, nth_error p q = Some x /\ nth_error s q = Some y /\ old <> x /\ old <> y /\
         (nth_error pr q = Some old /\ new = x \/ nth_error sr q = Some old /\ new = y)).
  Proof.
    induction cols as [|[p s] cols IH]; intros i oldp olds N H1 H2 Hc.
    - cbn [all_trans2]. split; [repeat split|]. split; [intros j q|intros j new old]; (split; [intros []|intros ([|k] & pr & sr & p & s & _ & _ & E & _); discriminate]).
    - cbn [all_trans2]. destruct (Hc p s (or_introl eq_refl)) as [Lp Ls].
      destruct (@step2_spec i oldp olds p s) as (S1 & P1 & N1); try congruence.
      destruct (IH (S i) p s N) as (S2 & P2 & N2); auto; [intros; apply Hc; right; auto|]. clear IH.
      set (a := step_trans2 eqb i oldp olds p s) in *. set (b := all_trans2 eqb (S i) p s cols) in *.
      destruct S1 as (A1 & A2 & A3), S2 as (B1 & B2 & B3). unfold app_trans. cbn [tr_times tr_persons tr_new tr_old].
      split; [clearbody a b; unfold sized2; cbn [tr_times tr_persons tr_new tr_old]; rewrite !app_length; lia|]. split.
      + intros j q. rewrite combine_app_in by lia. rewrite P1, P2. split.
        * intros [[-> H]|(k & pr & sr & p' & s' & -> & E1 & E2 & H)].
          -- exists 0%nat, oldp, olds, p, s. rewrite Nat.add_0_r. auto.
          -- exists (S k), pr, sr, p', s'. split; [lia|]. auto.
        * intros ([|k] & pr & sr & p' & s' & -> & E1 & E2 & H).
          -- left. rewrite Nat.add_0_r. simpl in E1, E2. injection E1 as -> ->. injection E2 as -> ->. auto.
          -- right. exists k, pr, sr, p', s'. split; [lia|]. auto.
      + intros j new old. rewrite combine_app by lia. rewrite combine_app_in by (rewrite combine_length; lia). rewrite N1, N2. split.
        * intros [[-> H]|(k & pr & sr & p' & s' & -> & E1 & E2 & H)].
          -- exists 0%nat, oldp, olds, p, s. rewrite Nat.add_0_r. auto.
          -- exists (S k), pr, sr, p', s'. split; [lia|]. auto.
        * intros ([|k] & pr & sr & p' & s' & -> & E1 & E2 & H).
          -- left. rewrite Nat.add_0_r. simpl in E1, E2. injection E1 as -> ->. injection E2 as -> ->. auto.
          -- right. exists k, pr, sr, p', s'. split; [lia|]. auto.
  Qed.
End Secondary.

Section SecondaryTable.
  Variables (A : Type) (eqb : A -> A -> bool).
  Hypothesis eqb_eq : forall x y, eqb x y = true <-> x = y.

  Lemma in_combine_iff : forall X Y (a : list X) (b : list Y) x y, In (x, y) (combine a b) <-> exists k, at_ a k x /\ at_ b k y.
  Proof.
    intros X Y a b x y. split; [apply in_combine_at|]. intros (k & H1 & H2).
    apply (nth_error_In _ k). rewrite combine_nth_error. unfold at_ in *. rewrite H1, H2. auto.
  Qed.

  Lemma secondary_spec : forall tp ts : table A, full (width tp) (rows tp) -> full (width tp) (rows ts) ->
    width ts = width tp -> length (rows ts) = length (rows tp) -> (0 < width tp)%nat ->
    exists tr, states_to_transitions_secondary eqb tp ts = Ok tr /\
      length (tr_persons tr) = length (tr_times tr) /\ length (tr_new tr) = length (tr_times tr) /\ length (tr_old tr) = length (tr_times tr) /\
      (forall i p, (exists k, at_ (tr_times tr) k i /\ at_ (tr_persons tr) k p) <->
         exists j x y, i = S j /\ diary (rows tp) p i y /\ (diary (rows tp) p j x \/ diary (rows ts) p j x) /\ vanished (rows tp) (rows ts) p i x) /\
      (forall i new old, (exists k, at_ (tr_times tr) k i /\ at_ (tr_new tr) k new /\ at_ (tr_old tr) k old) <->
         exists j p, i = S j /\ vanished (rows tp) (rows ts) p i old /\
           (diary (rows tp) p i new /\ diary (rows tp) p j old \/ diary (rows ts) p i new /\ diary (rows ts) p j old)).
  Proof.
    intros tp ts Hp Hs0 Hwe Hl Hw. assert (Hs : full (width ts) (rows ts)) by (rewrite Hwe; auto). clear Hs0.
    apply rectangular_full in Hp as Rp. apply rectangular_full in Hs as Rs.
    unfold states_to_transitions_secondary. rewrite Rp, Rs. cbn [andb].
    assert (Lp := columns_length tp). assert (Ls := columns_length ts).
    pose proof (columns_at tp Hw) as Cp. assert (Hws : (0 < width ts)%nat) by lia. pose proof (columns_at ts Hws) as Cs.
    destruct (columns tp) as [|c cp] eqn:Ep; [simpl in Lp; lia|]. destruct (columns ts) as [|d cs] eqn:Es; [simpl in Ls; lia|].
    rewrite <- Ep, <- Es in *.
    assert (Ec : c = column tp 0) by (rewrite Ep in Cp; simpl in Cp; congruence).
    assert (Ed : d = column ts 0) by (rewrite Es in Cs; simpl in Cs; congruence).
    set (cols := combine (columns tp) (columns ts)).
    assert (Hcols : forall k p s, nth_error cols k = Some (p, s) <-> (k < width tp)%nat /\ p = column tp k /\ s = column ts k).
    { intros k p s. unfold cols. rewrite combine_nth_error. destruct (lt_dec k (width tp)) as [Hk|Hk].
      - rewrite !columns_at by lia. split; [intro E; injection E as <- <-; auto|intros (_ & -> & ->); auto].
      - replace (nth_error (columns tp) k) with (@None (list A)) by (symmetry; apply nth_error_None; lia). split; [discriminate|tauto]. }
    destruct (@all2_spec A eqb eqb_eq cols 0 c d (length (rows tp))) as (S0 & P0 & N0).
    { rewrite Ec. apply column_length; auto. } { rewrite Ed, <- Hl. apply column_length; auto. }
    { intros p s Hin. apply in_at in Hin. destruct Hin as [k Hk]. apply Hcols in Hk. destruct Hk as (Hk & -> & ->).
      split; [|rewrite <- Hl]; apply column_length; auto; lia. }
    set (tr := all_trans2 eqb 0 c d cols) in *. exists tr. split; auto.
    destruct S0 as (L1 & L2 & L3). split; auto. split; auto. split; auto.
    assert (Hdiag : forall q i x y o, (i < width tp)%nat -> nth_error (column tp i) q = Some x -> nth_error (column ts i) q = Some y -> 
       (vanished (rows tp) (rows ts) q i o <-> o <> x /\ o <> y)).
    { intros q i x y o Hi Hx Hy. apply (column_diary tp) in Hx; auto. apply (column_diary ts) in Hy; auto; try lia.
      assert (U : forall (rs : list (list A)) a b, diary rs q i a -> diary rs q i b -> a = b).
      { intros rs a b (r & H1 & H2) (r' & H3 & H4). unfold at_ in *. congruence. }
      unfold vanished. split.
      - intros [N1 N2]. split; intro; subst; auto.
      - intros [N1 N2]. split; intro H; [apply N1|apply N2]; eapply U; eauto. }
    assert (Hother : forall q i x, diary (rows tp) q i x -> exists y, diary (rows ts) q i y).
    { intros q i x (r & H1 & H2). destruct (lt_at _ (rows ts) q) as [r' Hr']; [rewrite Hl; eapply at_lt; eauto|].
      destruct (lt_at _ r' i) as [y Hy]; [rewrite (Hs q r' Hr'), Hwe, <- (Hp q r H1); eapply at_lt; eauto|]. exists y, r'; auto. }
    assert (Hother' : forall q i x, diary (rows ts) q i x -> exists y, diary (rows tp) q i y).
    { intros q i x (r & H1 & H2). destruct (lt_at _ (rows tp) q) as [r' Hr']; [rewrite <- Hl; eapply at_lt; eauto|].
      destruct (lt_at _ r' i) as [y Hy]; [rewrite (Hp q r' Hr'), <- Hwe, <- (Hs q r H1); eapply at_lt; eauto|]. exists y, r'; auto. }
    split.
    - intros i p. rewrite <- in_combine_iff, P0. split.
      + intros (k & pr & sr & a & b & -> & E1 & E2 & o & x & y & Ho & Hx & Hy & N1 & N2).
        apply Hcols in E2. destruct E2 as (Hk & -> & ->). destruct k as [|k]; simpl in E1.
        * injection E1 as <- <-. subst c d. exfalso. destruct Ho; congruence.
        * apply Hcols in E1. destruct E1 as (Hk' & -> & ->). exists k, o, x. split; auto. split; [apply (column_diary tp); auto|].
          split; [|apply (Hdiag p (S k) x y); auto]. destruct Ho as [Ho|Ho]; [left; apply (column_diary tp)|right; apply (column_diary ts)]; auto; lia.
      + intros (j & o & x & -> & Hx & Ho & Hv). assert (Hj : (S j < width tp)%nat) by (eapply (diary_lt tp); eauto).
        destruct (Hother _ _ _ Hx) as [y Hy].
        exists (S j), (column tp j), (column ts j), (column tp (S j)), (column ts (S j)).
        split; [lia|]. split; [simpl; apply Hcols; split; [lia|auto]|]. split; [apply Hcols; auto|].
        assert (Ex : nth_error (column tp (S j)) p = Some x) by (apply column_diary; auto).
        assert (Ey : nth_error (column ts (S j)) p = Some y) by (apply column_diary; auto; lia).
        exists o, x, y. apply (Hdiag p (S j) x y) in Hv; auto. destruct Hv. split; [|auto].
        destruct Ho as [Ho|Ho]; [left|right]; apply column_diary; auto; lia.
    - intros i new old.
      assert (Hin : (exists k, at_ (tr_times tr) k i /\ at_ (tr_new tr) k new /\ at_ (tr_old tr) k old) <->
                    In (i, (new, old)) (combine (tr_times tr) (combine (tr_new tr) (tr_old tr)))).
      { rewrite in_combine_iff. unfold at_. split; intros (k & H1 & H2); exists k; (split; [auto|]).
        - destruct H2 as [H2 H3]. rewrite combine_nth_error, H2, H3. auto.
        - rewrite combine_nth_error in H2. destruct (nth_error (tr_new tr) k), (nth_error (tr_old tr) k); try discriminate. injection H2 as <- <-. auto. }
      rewrite Hin, N0. split.
      + intros (k & pr & sr & a & b & -> & E1 & E2 & q & x & y & Hx & Hy & N1 & N2 & Ho).
        apply Hcols in E2. destruct E2 as (Hk & -> & ->). destruct k as [|k]; simpl in E1.
        * injection E1 as <- <-. subst c d. exfalso. destruct Ho as [[Ho _]|[Ho _]]; congruence.
        * apply Hcols in E1. destruct E1 as (Hk' & -> & ->). exists k, q. split; auto. split; [apply (Hdiag q (S k) x y); auto|].
          destruct Ho as [[Ho ->]|[Ho ->]]; [left|right]; split; apply column_diary; auto; lia.
      + intros (j & q & -> & Hv & Ho).
        assert (G : exists x y, diary (rows tp) q (S j) x /\ diary (rows ts) q (S j) y).
        { destruct Ho as [[H _]|[H _]]; [destruct (Hother _ _ _ H)|destruct (Hother' _ _ _ H)]; eauto. }
        destruct G as (x & y & Hx & Hy). assert (Hj : (S j < width tp)%nat) by (eapply (diary_lt tp); eauto).
        exists (S j), (column tp j), (column ts j), (column tp (S j)), (column ts (S j)).
        split; [lia|]. split; [simpl; apply Hcols; split; [lia|auto]|]. split; [apply Hcols; auto|].
        assert (Ex : nth_error (column tp (S j)) q = Some x) by (apply column_diary; auto).
        assert (Ey : nth_error (column ts (S j)) q = Some y) by (apply column_diary; auto; lia).
        exists q, x, y. apply (Hdiag q (S j) x y) in Hv; auto. destruct Hv as [N1 N2]. repeat (split; [auto|]).
        assert (U : forall (rs : list (list A)) i a b, diary rs q i a -> diary rs q i b -> a = b).
        { intros rs i a b (r & H1 & H2) (r' & H3 & H4). unfold at_ in *. congruence. }
        destruct Ho as [[H1 H2]|[H1 H2]]; [left|right]; (split; [apply column_diary; auto; lia|eapply U; eauto]).
  Qed.
End SecondaryTable.
