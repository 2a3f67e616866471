(** * Proofs about the time dependent matrices. *)

From Coq Require Import List ZArith QArith Bool Lia Lqa Arith Sorted.
From Verif Require Import Prelude PreludeFacts SpecBase SpecBaseFacts Parse_Model Parse_Spec Parse_Proofs Parse_DurProofs Parse_TpmProofs
  Parse_SemiProofs Parse_GroupProofs Atus_Model Atus_Spec Atus_Proofs Atus_StateProofs Atus_MaskProofs Atus_BlockProofs Atus_RowProofs.
Import ListNotations.
Local Open Scope nat_scope.

Set Implicit Arguments.

(** ** The lines of a table, in order *)

Fixpoint canon (p : nat) (rows : list (list nat)) : list (nat * nat * nat) :=
  match rows with
  | [] => []
  | r :: rs => map (fun tx => (fst tx, p, snd tx)) (blk r) ++ canon (S p) rs
  end.

Lemma canon_times : forall rows p, map (fun x => fst (fst x)) (canon p rows) = concat (map (map fst) (map blk rows)).
Proof. induction rows as [|r rows IH]; intro p; simpl; auto. rewrite map_app, map_map, IH. reflexivity. Qed.
Lemma canon_news : forall rows p, map snd (canon p rows) = concat (map (map snd) (map blk rows)).
Proof. induction rows as [|r rows IH]; intro p; simpl; auto. rewrite map_app, map_map, IH. reflexivity. Qed.
Lemma canon_pers : forall rows p, map (fun x => snd (fst x)) (canon p rows) = pers p (map (@length _) (map blk rows)).
Proof.
  induction rows as [|r rows IH]; intro p; simpl; auto. rewrite map_app, map_map, IH. f_equal. cbn [fst snd].
  induction (blk r); simpl; auto. f_equal. auto.
Qed.

Lemma chg_in : forall r s x t y, In (t, y) (chg s x r) <-> s <= t /\ at_ r (t - s) y /\ ~ at_ (x :: r) (t - s) y.
Proof.
  induction r as [|z r IH]; intros s x t y; cbn [chg].
  - split; [intros []|]. intros (_ & H & _). unfold at_ in H. destruct (t - s); discriminate.
  - assert (Hst : forall (A : Type) (l : list A) a v, s < t -> (at_ (a :: l) (t - s) v <-> at_ l (t - S s) v)).
    { intros A l a v H. replace (t - s) with (S (t - S s)) by lia. reflexivity. }
    destruct (Nat.eqb_spec z x) as [->|Hne].
    + rewrite IH. destruct (Nat.lt_trichotomy s t) as [H|[<-|H]].
      * rewrite !Hst by auto. intuition lia.
      * rewrite Nat.sub_diag. unfold at_. simpl. intuition; try lia. 
      * intuition lia.
    + cbn [In]. rewrite IH. destruct (Nat.lt_trichotomy s t) as [H|[<-|H]].
      * rewrite !Hst by auto. split; [intros [E|E]; [injection E; lia|intuition lia]|intros E; right; intuition lia].
      * rewrite Nat.sub_diag. unfold at_. simpl. split.
        -- intros [E|(E & _)]; [injection E as ->; split; auto; split; auto; congruence|lia].
        -- intros (_ & E & _). left. congruence.
      * split; [intros [E|E]; [injection E; lia|intuition lia]|intros E; intuition lia].
Qed.

Lemma blk_in : forall r t x, In (t, x) (blk r) <-> at_ r t x /\ (t = 0 \/ ~ at_ r (t - 1) x).
Proof.
  intros [|y r] t x; cbn [blk].
  - split; [intros []|]. intros [H _]. unfold at_ in H. destruct t; discriminate.
  - cbn [In]. rewrite chg_in. destruct t as [|t].
    + unfold at_; simpl. split; [intros [E|(E & _)]; [injection E as ->; auto|lia]|intros [E _]; left; congruence].
    + replace (S t - 1) with t by lia. unfold at_ at 1 3. cbn [nth_error]. split.
      * intros [E|(_ & E1 & E2)]; [discriminate|auto].
      * intros [E1 [E2|E2]]; [discriminate|]. right. split; [lia|auto].
Qed.

Lemma canon_in : forall rows p t q x, In (t, q, x) (canon p rows) <-> p <= q /\ exists r, at_ rows (q - p) r /\ In (t, x) (blk r).
Proof.
  induction rows as [|r rows IH]; intros p t q x; cbn [canon].
  - split; [intros []|]. intros (_ & r & H & _). unfold at_ in H. destruct (q - p); discriminate.
  - rewrite in_app_iff, in_map_iff, IH. split.
    + intros [([t' x'] & E & H)|(H & r' & H1 & H2)].
      * cbn [fst snd] in E. injection E as -> <- ->. split; auto. exists r. rewrite Nat.sub_diag. split; [reflexivity|auto].
      * split; [lia|]. exists r'. replace (q - p) with (S (q - S p)) by lia. auto.
    + intros (H & r' & H1 & H2). destruct (Nat.eq_dec q p) as [->|].
      * left. rewrite Nat.sub_diag in H1. unfold at_ in H1. simpl in H1. injection H1 as ->. exists (t, x). auto.
      * right. split; [lia|]. exists r'. replace (q - p) with (S (q - S p)) in H1 by lia. auto.
Qed.

Definition tline_lt (x y : nat * nat * nat) : Prop := line_lt true (snd (fst x), fst (fst x)) (snd (fst y), fst (fst y)).

Lemma strong_app : forall A (R : A -> A -> Prop) l m, StronglySorted R l -> StronglySorted R m -> (forall x y, In x l -> In y m -> R x y) ->
  StronglySorted R (l ++ m).
Proof.
  induction l as [|a l IH]; intros m Hl Hm H; simpl; auto. inversion Hl as [|? ? H1 H2]; subst. constructor.
  - apply IH; auto. intros; apply H; auto; right; auto.
  - apply Forall_forall. intros y Hy. apply in_app_iff in Hy. destruct Hy as [Hy|Hy]; [rewrite Forall_forall in H2; auto|]. apply H; auto; left; auto.
Qed.

Lemma chg_sorted : forall r s x, StronglySorted (fun a b : nat * nat => fst a < fst b) (chg s x r).
Proof.
  induction r as [|y r IH]; intros s x; cbn [chg]; [constructor|]. destruct (y =? x); auto. constructor; auto.
  apply Forall_forall. intros [t z] Hin. apply chg_in in Hin. simpl. lia.
Qed.

Lemma blk_sorted : forall r, StronglySorted (fun a b : nat * nat => fst a < fst b) (blk r).
Proof.
  intros [|x r]; cbn [blk]; constructor; [apply chg_sorted|]. apply Forall_forall. intros [t z] Hin. apply chg_in in Hin. simpl. lia.
Qed.

Lemma canon_sorted : forall rows p, StronglySorted tline_lt (canon p rows).
Proof.
  induction rows as [|r rows IH]; intro p; cbn [canon]; [constructor|]. apply strong_app; auto.
  - pose proof (blk_sorted r) as H. induction H as [|a l Hs IHs Ha]; simpl; constructor; auto.
    apply Forall_forall. intros y Hy. apply in_map_iff in Hy. destruct Hy as (b & <- & Hb). rewrite Forall_forall in Ha. specialize (Ha b Hb).
    unfold tline_lt, line_lt. cbn [fst snd]. right. auto.
  - intros x y Hx Hy. apply in_map_iff in Hx. destruct Hx as (a & <- & _). destruct y as [[t q] z]. apply canon_in in Hy. unfold tline_lt, line_lt. cbn [fst snd]. lia.
Qed.

Lemma sorted_unique : forall A (R : A -> A -> Prop), (forall x y, R x y -> R y x -> False) ->
  forall l l', StronglySorted R l -> StronglySorted R l' -> (forall x, In x l <-> In x l') -> l = l'.
Proof.
  intros A R HR. assert (Hirr : forall x, ~ R x x) by (intros x H; eauto).
  induction l as [|a l IH]; intros l' H H' E.
  - destruct l' as [|b l']; auto. exfalso. apply (proj2 (E b)). left; auto.
  - destruct l' as [|b l']; [exfalso; apply (proj1 (E a)); left; auto|].
    inversion H as [|? ? H1 H2]; subst. inversion H' as [|? ? H3 H4]; subst. rewrite Forall_forall in H2, H4.
    assert (a = b).
    { destruct (proj1 (E a) (or_introl eq_refl)) as [|Ha]; auto. destruct (proj2 (E b) (or_introl eq_refl)) as [|Hb]; auto.
      exfalso. eapply HR; [apply H2; eauto|apply H4; eauto]. }
    subst b. f_equal. apply IH; auto. intro x. split; intro Hx.
    + destruct (proj1 (E x) (or_intror Hx)) as [<-|]; auto. exfalso. eapply Hirr; eauto.
    + destruct (proj2 (E x) (or_intror Hx)) as [<-|]; auto. exfalso. eapply Hirr; eauto.
Qed.

Lemma zip_strict : forall times persons news, length persons = length times -> length news = length times -> by_person_strictly times persons ->
  StronglySorted tline_lt (zip3 times persons news).
Proof.
  intros times persons news L1 L2 S. apply strongly_nth.
  intros k k' [[t p] x] [[t' p'] x'] Hk H1 H2. apply zip_at in H1, H2. destruct H1 as (A1 & A2 & _), H2 as (B1 & B2 & _).
  unfold tline_lt, line_lt; cbn [fst snd]. destruct (S k k' p p' Hk A2 B2) as [|[E H]]; auto.
Qed.

Lemma tidy_canon : forall rows times persons news, describes rows times persons news -> by_person_strictly times persons ->
  zip3 times persons news = canon 0 rows.
Proof.
  intros rows times persons news (L1 & L2 & D) S. apply (@sorted_unique _ tline_lt).
  - intros x y. unfold tline_lt, line_lt; cbn [fst snd]. lia.
  - apply zip_strict; auto.
  - apply canon_sorted.
  - intros [[t p] x]. rewrite canon_in, Nat.sub_0_r.
    assert (E : In (t, p, x) (zip3 times persons news) <-> exists k, trans times persons news k t p x).
    { split; [intro H; apply in_at in H; destruct H as [k Hk]; exists k; apply zip_at; exact Hk|].
      intros [k Hk]. apply nth_error_In with k. apply zip_at; auto. }
    rewrite E, D. unfold begins. split.
    + intros ((r & H1 & H2) & H3). split; [lia|]. exists r. split; auto. apply blk_in. split; auto.
      destruct H3 as [H3|H3]; auto. right. intro H4. apply H3. exists r. auto.
    + intros (_ & r & H1 & H2). apply blk_in in H2. destruct H2 as [H2 H3]. split; [exists r; auto|].
      destruct H3 as [H3|H3]; auto. right. intros (r' & H4 & H5). apply H3. unfold at_ in *. congruence.
Qed.

Lemma zip3_parts : forall xs ys zs : list nat, length ys = length xs -> length zs = length xs ->
  xs = map (fun x => fst (fst x)) (zip3 xs ys zs) /\ ys = map (fun x => snd (fst x)) (zip3 xs ys zs) /\ zs = map snd (zip3 xs ys zs).
Proof.
  unfold zip3. induction xs as [|x xs IH]; intros [|y ys] [|z zs] H1 H2; simpl in *; try discriminate; auto.
  destruct (IH ys zs) as (E1 & E2 & E3); try lia. rewrite <- E1, <- E2, <- E3. auto.
Qed.

(** ** Counts over the table *)

Lemma cnt_concat : forall t a b (xss : list (list (nat * nat * nat))), cnt t a b (concat xss) = nsum (map (cnt t a b) xss).
Proof. intros. unfold cnt. induction xss as [|l xss IH]; simpl; auto. rewrite filter_app, app_length, IH. auto. Qed.

Lemma nsum_bits : forall A (f : A -> bool) l, nsum (map (fun x => bit (f x)) l) = length (filter f l).
Proof. induction l as [|x l IH]; simpl; auto. rewrite IH. destruct (f x); reflexivity. Qed.

Lemma cnt_in : forall t a b l, In (t, a, b) l -> 0 < cnt t a b l.
Proof.
  intros t a b l H. unfold cnt. assert (Hf : In (t, a, b) (filter (three t a b) l)).
  { apply filter_In. split; auto. unfold three; cbn [fst snd]. rewrite !Nat.eqb_refl. reflexivity. }
  destruct (filter (three t a b) l); [destruct Hf|simpl; lia].
Qed.

Section Table.
  Variables (n : nat) (rws : list (list nat)).
  Hypothesis Hn : 0 < n.
  Hypothesis F : full n rws.

  Let row_len : forall r, In r rws -> length r = n.
  Proof. intros r H. apply in_at in H. destruct H as [p Hp]. eapply F; eauto. Qed.

  Lemma blocks_some : some_blocks (map blk rws).
  Proof.
    unfold some_blocks. apply Forall_forall. intros b Hb. apply in_map_iff in Hb. destruct Hb as (r & <- & Hr).
    pose proof (row_len _ Hr). destruct r; [simpl in *; lia|discriminate].
  Qed.

  Lemma moves_zip : zip3 (concat (map (map fst) (map blk rws))) (concat (map olds_of (map blk rws))) (concat (map (map snd) (map blk rws))) =
    concat (map row_moves rws).
  Proof.
    unfold zip3. assert (L1 : map (@length nat) (map (map fst) (map blk rws)) = map (@length nat) (map olds_of (map blk rws))).
    { rewrite !map_map. apply map_ext_in. intros r Hr. destruct (chg_lens (blk r)) as [E|E]; auto.
      pose proof (row_len _ Hr). destruct r; [simpl in *; lia|discriminate]. }
    assert (G : forall bs, (forall b, In b bs -> length (olds_of b) = length b) -> 
      map (@length (nat * nat)) (map2 (@combine nat nat) (map (map fst) bs) (map olds_of bs)) = map (@length nat) (map (map snd) bs)).
    { clear. intros bs H. rewrite map2_map_map, !map_map. apply map_ext_in. intros b Hb. rewrite combine_length, !map_length, H by auto. lia. }
    rewrite combine_concat by auto. rewrite combine_concat.
    - f_equal. rewrite !map_map, !map2_map_map. reflexivity.
    - apply G. intros b Hb. pose proof blocks_some as Hs. unfold some_blocks in Hs. rewrite Forall_forall in Hs. specialize (Hs b Hb).
      destruct (chg_lens b) as [E|E]; [rewrite E; apply map_length|congruence].
  Qed.

  Lemma stays_zip : zip3 (compress (concat (map flags_of (map blk rws))) (concat (map (map fst) (map blk rws))))
      (compress (concat (map flags_of (map blk rws))) (concat (map (map snd) (map blk rws))))
      (compress (concat (map flags_of (map blk rws))) (concat (map (durs_of n) (map blk rws)))) = concat (map (row_stays n) rws).
  Proof.
    pose proof blocks_some as Hs. unfold some_blocks in Hs. rewrite Forall_forall in Hs.
    assert (Ld : forall b, In b (map blk rws) -> length (durs_of n b) = length b).
    { intros b Hb. specialize (Hs b Hb). destruct b as [|x b]; [congruence|]. unfold durs_of.
      assert (G : forall l m : list nat, length m = length l -> length (map2 Nat.sub l m) = length l).
      { induction l as [|y l IH]; intros [|z m] E; simpl in *; try discriminate; auto. }
      rewrite G; cbn [map tl]; rewrite app_length, map_length; simpl; [lia|]. rewrite map_length. lia. }
    assert (Lf : forall b, In b (map blk rws) -> length (flags_of b) = length b).
    { intros b Hb. specialize (Hs b Hb). destruct b as [|x b]; [congruence|]. unfold flags_of. rewrite app_length, repeat_length. simpl. lia. }
    unfold zip3. rewrite <- !compress_combine. rewrite combine_concat by (rewrite !map_map; apply map_ext; intro; rewrite !map_length; auto).
    rewrite combine_concat.
    - rewrite compress_concat.
      + f_equal. rewrite !map_map, !map2_map_map. reflexivity.
      + rewrite !map2_map_map, !map_map. apply map_ext_in. intros r Hr. assert (Hb : In (blk r) (map blk rws)) by (apply in_map; auto).
        rewrite Lf by auto. rewrite !combine_length, !map_length, Ld by auto. lia.
    - rewrite map2_map_map, !map_map. apply map_ext_in. intros r Hr. assert (Hb : In (blk r) (map blk rws)) by (apply in_map; auto).
      rewrite combine_length, !map_length, Ld by auto. lia.
  Qed.

  Definition moves_of (t a b : nat) : Q := persons_with (fun r => leaves n t a r && is_at t b r)%bool rws.
  Definition stays_of (t s d : nat) : Q := persons_with (fun r => stay_begins t s r && stay_known n t s r && (stay_length n t s r =? d))%bool rws.

  Lemma moves_count : forall t a b, qn (cnt t a b (concat (map row_moves rws))) = moves_of t a b.
  Proof.
    intros. unfold moves_of, persons_with, qn. do 2 f_equal. rewrite cnt_concat, map_map, <- nsum_bits. apply nsum_map_ext.
    intros r Hr. apply row_moves_count; auto.
  Qed.

  Lemma stays_count_of : forall t s d, qn (cnt t s d (concat (map (row_stays n) rws))) = stays_of t s d.
  Proof.
    intros. unfold stays_of, persons_with, qn. do 2 f_equal. rewrite cnt_concat, map_map, <- nsum_bits. apply nsum_map_ext.
    intros r Hr. apply row_stays_count; auto.
  Qed.

  Variable k : nat.
  Hypothesis Hk : forall p t x, diary rws p t x -> x < k.

  Let is_at_k : forall r t x, In r rws -> is_at t x r = true -> t < n /\ x < k.
  Proof.
    intros r t x Hr H. apply is_at_true in H. pose proof (row_len _ Hr) as L. split; [rewrite <- L; eapply at_lt; eauto|].
    apply in_at in Hr. destruct Hr as [p Hp]. apply (@Hk p t). exists r. auto.
  Qed.

  Lemma moves_range : forall t a b, In (t, a, b) (concat (map row_moves rws)) -> t < n /\ a < k /\ b < k.
  Proof.
    intros t a b H. apply in_concat in H. destruct H as (l & Hl & H). apply in_map_iff in Hl. destruct Hl as (r & <- & Hr).
    apply cnt_in in H. rewrite (@row_moves_count r n t a b) in H by auto.
    destruct (leaves n t a r && is_at t b r) eqn:E; [|simpl in H; lia]. apply andb_true_iff in E. destruct E as [E1 E2].
    unfold leaves in E1. apply andb_true_iff in E1. destruct E1 as [E1 _]. apply (@is_at_k _ _ _ Hr) in E1. apply (@is_at_k _ _ _ Hr) in E2. tauto.
  Qed.

  Lemma stays_range : forall t s d, In (t, s, d) (concat (map (row_stays n) rws)) -> t < n /\ s < k /\ d < S n.
  Proof.
    intros t s d H. apply in_concat in H. destruct H as (l & Hl & H). apply in_map_iff in Hl. destruct Hl as (r & <- & Hr).
    apply cnt_in in H. rewrite (@row_stays_count r n t s d) in H by auto.
    destruct (stay_begins t s r && stay_known n t s r && (stay_length n t s r =? d)) eqn:E; [|simpl in H; lia].
    apply andb_true_iff in E. destruct E as [E E3]. apply andb_true_iff in E. destruct E as [E1 _].
    unfold stay_begins in E1. apply andb_true_iff in E1. destruct E1 as [E1 _]. apply (@is_at_k _ _ _ Hr) in E1.
    apply Nat.eqb_eq in E3. unfold stay_length in E3. split; [tauto|]. split; [tauto|lia].
  Qed.

  Lemma moves_sum : forall t a, t < n -> (qsum (map (moves_of t a) (seq 0 k)) == persons_with (leaves n t a) rws)%Q.
  Proof.
    intros t a Ht. transitivity (qn (nsum (map (fun b => length (filter (fun r => leaves n t a r && is_at t b r)%bool rws)) (seq 0 k)))); [apply qsum_qn|].
    unfold persons_with. fold (qn (length (filter (leaves n t a) rws))).
    rewrite <- (@split_count _ (leaves n t a) (fun r => nth t r 0) k rws).
    - erewrite nsum_map_ext; [reflexivity|]. intros b _. apply filter_ext_length. intros r Hr. rewrite (@is_at_nth t) by (rewrite (row_len _ Hr); auto). reflexivity.
    - intros r Hr. apply in_at in Hr as Hp. destruct Hp as [p Hp]. apply (@Hk p t). exists r. split; auto. apply nth_error_nth'. rewrite (row_len _ Hr). auto.
  Qed.

  Lemma stays_sum : forall t s, (qsum (map (stays_of t s) (seq 0 (S n))) == persons_with (fun r => stay_begins t s r && stay_known n t s r)%bool rws)%Q.
  Proof.
    intros t s.
    transitivity (qn (nsum (map (fun d => length (filter (fun r => stay_begins t s r && stay_known n t s r && (stay_length n t s r =? d))%bool rws)) (seq 0 (S n))))); [apply qsum_qn|].
    rewrite (@split_count _ (fun r => stay_begins t s r && stay_known n t s r)%bool (stay_length n t s)); [reflexivity|].
    intros r _. unfold stay_length. lia.
  Qed.
End Table.

(** ** build_timed *)

Lemma probs_tab3 : forall n m w, to_probs (tab n (fun i => tab m (w i))) = tab n (fun i => tab m (fun j => nan_div (w i j) (qsum (tab m (w i))))).
Proof.
  intros. unfold to_probs, tab. rewrite map_map. apply map_ext. intro i. rewrite map_map. reflexivity.
Qed.

Lemma timed_arrays : forall rws n times persons news, 0 < n -> full n rws -> rws <> [] ->
  describes rws times persons news -> by_person_strictly times persons ->
  exists olds durs counted, line_data n times persons news = Ok (olds, durs, counted) /\
    zip3 times olds news = concat (map row_moves rws) /\
    zip3 (compress counted times) (compress counted news) (compress counted durs) = concat (map (row_stays n) rws).
Proof.
  intros rws n times persons news Hn F Hne D Hs. pose proof (tidy_canon D Hs) as E. destruct D as (L1 & L2 & _).
  destruct (zip3_parts times persons news L1 L2) as (E1 & E2 & E3). rewrite E in E1, E2, E3.
  rewrite canon_times in E1. rewrite canon_pers in E2. rewrite canon_news in E3. rewrite E1, E2, E3.
  exists (concat (map olds_of (map blk rws))), (concat (map (durs_of n) (map blk rws))), (concat (map flags_of (map blk rws))).
  split; [|split; [apply (moves_zip Hn F)|apply (stays_zip Hn F)]].
  apply line_data_blocks; [destruct rws; [congruence|discriminate]|apply (blocks_some Hn F)].
Qed.

Lemma timed_checks : forall rws n times persons news initial nt np ns k, 0 < n -> full n rws -> rws <> [] ->
  describes rws times persons news -> by_person_strictly times persons -> first_states rws initial ->
  size nt times n -> (np = None \/ np = Some (length rws)) -> size ns news k -> (forall p t x, diary rws p t x -> x < k) ->
  forall algo, build_timed initial times persons news nt np ns algo =
    bind (line_data n times persons news) (fun d =>
    let '(olds, durations, counted) := d in
    bind (assign set3 (uniq_counts cmp3 (zip3 times olds news)) (zeros3 n k k)) (fun moves =>
    bind (assign set3 (uniq_counts cmp3 (zip3 (compress counted times) (compress counted news) (compress counted durations))) (zeros3 n k (S n))) (fun stays =>
    bind (first_tpm_change algo moves) (fun moves' =>
    bind (first_tpm_change algo stays) (fun stays' =>
    Ok (map to_probs moves', map to_probs stays')))))).
Proof.
  intros rws n times persons news initial nt np ns k Hn F Hne D Hs [Li Hi] S1 Hnp S3 Hk algo.
  destruct (describes_sizes F Hn Hne D Hnp) as (_ & S2 & _). unfold build_timed. pose proof D as (L1 & L2 & DD).
  apply size_ok in S1, S2. rewrite S1, S2. cbn [bind].
  rewrite (proj2 (states_size_ok ns news (Some initial) k)).
  2:{ split; auto. destruct ns; [right; exists initial|left; auto]. split; auto. split.
      - destruct initial; [simpl in Li; destruct rws; [congruence|simpl in *; lia]|discriminate].
      - intros x Hx. apply in_at in Hx. destruct Hx as [p Hp]. apply (Hk p 0). apply Hi; auto. }
  cbn [bind]. rewrite Li, Nat.eqb_refl. cbn [require bind]. rewrite (proj2 (same_lengths_ok times persons news)) by auto. cbn [bind].
  rewrite (proj2 (check_start_ok _ _ _ _)).
  2:{ intros j p x Hj. assert (Hb : begins rws 0 p x) by (apply DD; eauto). destruct Hb as [Hb _].
      destruct (lt_at _ initial p) as [y Hy]; [rewrite Li; exact (proj1 (diary_lt F Hb))|].
      pose proof (Hi p y Hy) as Hy'. replace x with y by (eapply diary_fun; eauto). auto. }
  cbn [bind]. apply (sorted_iff true times persons L1) in Hs. apply andb_true_iff in Hs. destruct Hs as [-> ->]. reflexivity.
Qed.

Lemma timed_spec : forall rws n times persons news initial nt np ns k algo, 0 < n -> full n rws -> rws <> [] ->
  describes rws times persons news -> by_person_strictly times persons -> first_states rws initial ->
  size nt times n -> (np = None \/ np = Some (length rws)) -> size ns news k -> (forall p t x, diary rws p t x -> x < k) ->
  algo <> AlgoUnknown ->
  build_timed initial times persons news nt np ns algo =
    Ok (tab n (fun t => to_probs (tab k (fun a => tab k (moves_of n rws (source algo n t) a)))),
        tab n (fun t => to_probs (tab k (fun s => tab (S n) (stays_of n rws (source algo n t) s))))).
Proof.
  intros rws n times persons news initial nt np ns k algo Hn F Hne D Hs Hi S1 Hnp S3 Hk Ha.
  rewrite (@timed_checks rws n times persons news initial nt np ns k Hn F Hne D Hs Hi S1 Hnp S3 Hk algo).
  destruct (timed_arrays Hn F Hne D Hs) as (olds & durs & counted & E1 & E2 & E3). rewrite E1. cbn [bind].
  rewrite (@assign3_counts n k k times olds news) by (rewrite E2; intros i j l H; eapply moves_range; eauto). cbn [bind].
  rewrite (@assign3_counts n k (S n) (compress counted times) (compress counted news) (compress counted durs)) by (rewrite E3; intros i j l H; eapply stays_range; eauto). cbn [bind].
  assert (M : tab3 n k k (lines3 times olds news) = tab n (fun t => tab k (fun a => tab k (moves_of n rws t a)))).
  { apply tab_ext. intros t _. apply tab_ext. intros a _. apply tab_ext. intros b _. rewrite lines3_cnt, E2. apply moves_count; auto. }
  assert (N : tab3 n k (S n) (lines3 (compress counted times) (compress counted news) (compress counted durs)) = tab n (fun t => tab k (fun s => tab (S n) (stays_of n rws t s)))).
  { apply tab_ext. intros t _. apply tab_ext. intros a _. apply tab_ext. intros b _. rewrite lines3_cnt, E3. apply stays_count_of; auto. }
  rewrite M, N, !first_tab by auto. cbn [bind]. unfold tab at 1 4. rewrite !map_map. reflexivity.
Qed.

Lemma timed_unknown : forall rws n times persons news initial nt np ns k, 0 < n -> full n rws -> rws <> [] ->
  describes rws times persons news -> by_person_strictly times persons -> first_states rws initial ->
  size nt times n -> (np = None \/ np = Some (length rws)) -> size ns news k -> (forall p t x, diary rws p t x -> x < k) ->
  build_timed initial times persons news nt np ns AlgoUnknown = Err TypeError.
Proof.
  intros rws n times persons news initial nt np ns k Hn F Hne D Hs Hi S1 Hnp S3 Hk.
  rewrite (@timed_checks rws n times persons news initial nt np ns k Hn F Hne D Hs Hi S1 Hnp S3 Hk).
  destruct (timed_arrays Hn F Hne D Hs) as (olds & durs & counted & E1 & E2 & E3). rewrite E1. cbn [bind].
  rewrite (@assign3_counts n k k times olds news) by (rewrite E2; intros i j l H; eapply moves_range; eauto). cbn [bind].
  rewrite (@assign3_counts n k (S n) (compress counted times) (compress counted news) (compress counted durs)) by (rewrite E3; intros i j l H; eapply stays_range; eauto). reflexivity.
Qed.
