(** * Proofs about the tables and matrices of transitions. *)

From Coq Require Import List ZArith QArith Bool Lia Lqa Arith.
From Verif Require Import Prelude PreludeFacts SpecBase SpecBaseFacts Parse_Model Parse_Spec Parse_Proofs Parse_DurProofs Parse_TpmProofs
  Parse_SemiProofs Parse_GroupProofs Atus_Model Atus_Spec Atus_Proofs.
Import ListNotations.
Local Open Scope nat_scope.

Set Implicit Arguments.

(** ** transitions_to_states *)

Lemma at_start_lines : forall times persons news, length persons = length times -> length news = length times ->
  map snd (lines_at 0 times persons news) = at_start times news.
Proof.
  unfold lines_at, at_start. induction times as [|t times IH]; intros [|p persons] [|x news] H1 H2; simpl in *; try discriminate; auto.
  rewrite (Nat.eqb_sym t 0). destruct t; simpl; rewrite IH by lia; auto.
Qed.

Lemma transposed : forall m (cols : list (list nat)) p t x, full m cols ->
  (diary (columns (mkTable m cols)) p t x <-> p < m /\ exists c, at_ cols t c /\ at_ c p x).
Proof.
  intros m cols p t x Hf.
  assert (Hr : rectangular (mkTable m cols) = true) by (apply rectangular_full; auto).
  split.
  - intros (row & H1 & H2). pose proof (at_lt _ _ _ _ H1) as L. rewrite columns_length in L. cbn in L. split; auto.
    unfold at_ in H1. rewrite columns_at in H1 by auto. injection H1 as <-. rewrite (column_map _ 0 Hr) in H2 by auto.
    apply at_map in H2. destruct H2 as (c & Hc & ->). exists c. split; auto. apply nth_error_nth'. rewrite (Hf t c Hc). auto.
  - intros (Hp & c & Hc & Hx). eexists. split; [apply columns_at; auto|]. rewrite (column_map _ 0 Hr) by auto.
    unfold at_ in *. rewrite nth_error_map. cbn [rows]. rewrite Hc. simpl. f_equal. apply nth_error_nth. auto.
Qed.

Lemma transposed_full : forall m (cols : list (list nat)), full m cols -> full (length cols) (columns (mkTable m cols)).
Proof.
  intros m cols Hf p row Hp. assert (Hr : rectangular (mkTable m cols) = true) by (apply rectangular_full; auto).
  pose proof (at_lt _ _ _ _ Hp) as L. rewrite columns_length in L. unfold at_ in Hp. rewrite columns_at in Hp by auto. injection Hp as <-.
  rewrite (column_map _ 0 Hr) by auto. apply map_length.
Qed.

Lemma states_inv : forall times persons news initial nt np ns rows,
  transitions_to_states times persons news initial nt np ns = Ok rows ->
  exists n m k, size nt times n /\ size np persons m /\ states_size ns news initial = Ok k /\
    length persons = length times /\ length news = length times /\ length (start_states initial times news) = m /\
    starts_as times persons news (start_states initial times news) /\
    length rows = m /\ full n rows /\
    forall p t x, diary rows p t x <-> p < m /\ t < n /\ state_at times persons news (start_states initial times news) p t x.
Proof.
  intros times persons news initial nt np ns rws H. unfold transitions_to_states in H.
  destruct (size_of nt times) as [n|] eqn:E1; [|discriminate]. cbn [bind] in H.
  destruct (size_of np persons) as [m|] eqn:E2; [|discriminate]. cbn [bind] in H.
  destruct (states_size ns news initial) as [k|] eqn:E3; [|discriminate]. cbn [bind] in H.
  destruct (same_lengths times persons news) as [[]|] eqn:E4; [|discriminate]. cbn [bind] in H.
  apply same_lengths_ok in E4. destruct E4 as [L1 L2].
  set (init := match initial with Some l => l | None => map snd (lines_at 0 times persons news) end) in H.
  assert (Ei : init = start_states initial times news) by (unfold init, start_states; destruct initial; auto; apply at_start_lines; auto).
  rewrite Ei in H. clear Ei init. set (init := start_states initial times news) in *.
  destruct (require (length init =? m)) as [[]|] eqn:E5; [|discriminate]. cbn [bind] in H. apply require_ok, Nat.eqb_eq in E5.
  destruct (check_start times persons news init) as [[]|] eqn:E6; [|discriminate]. cbn [bind] in H. apply check_start_ok in E6.
  destruct (replay times persons news init (seq 0 n)) as [cols|] eqn:E7; [|discriminate]. cbn [bind] in H. injection H as <-.
  apply size_ok in E1. apply size_ok in E2.
  destruct (@replay_ok times persons news init n 0 init cols (before_zero times persons news init) E7) as [Lc V].
  assert (Hf : full m cols) by (intros j c Hc; apply V in Hc; destruct Hc as [Hc _]; congruence).
  exists n, m, k. repeat (split; [first [assumption|reflexivity]|]). split; [apply columns_length|]. split; [rewrite <- Lc; apply transposed_full; auto|].
  intros p t x. rewrite transposed by auto. split.
  - intros (Hp & c & Hc & Hx). split; auto. split; [rewrite <- Lc; eapply at_lt; eauto|].
    apply V in Hc. rewrite (before_state Hc) in Hx. tauto.
  - intros (Hp & Ht & Hs). split; auto. destruct (lt_at _ cols t) as [c Hc]; [lia|]. exists c. split; auto.
    apply V in Hc. apply (before_state Hc). split; auto. lia.
Qed.

Lemma states_total : forall times persons news initial nt np ns n m k,
  size nt times n -> size np persons m -> states_size ns news initial = Ok k ->
  length persons = length times -> length news = length times -> length (start_states initial times news) = m ->
  starts_as times persons news (start_states initial times news) ->
  exists rows, transitions_to_states times persons news initial nt np ns = Ok rows.
Proof.
  intros times persons news initial nt np ns n m k H1 H2 H3 L1 L2 L3 H4. unfold transitions_to_states.
  assert (Hp : forall p, In p persons -> p < m) by (destruct np; cbn in H2; tauto).
  apply size_ok in H1, H2. rewrite H1. cbn [bind]. rewrite H2. cbn [bind]. rewrite H3. cbn [bind].
  rewrite (proj2 (same_lengths_ok times persons news)) by auto. cbn [bind].
  set (init := match initial with Some l => l | None => map snd (lines_at 0 times persons news) end).
  assert (Ei : init = start_states initial times news) by (unfold init, start_states; destruct initial; auto; apply at_start_lines; auto).
  rewrite Ei. clear Ei init. rewrite L3, Nat.eqb_refl. cbn [require bind].
  rewrite (proj2 (check_start_ok _ _ _ _) H4). cbn [bind].
  destruct (@replay_total times persons news (seq 0 n) (start_states initial times news)) as [cols E]; [rewrite L3; auto|].
  rewrite E. cbn [bind]. eauto.
Qed.

(** ** Round trip *)

Lemma diary_fun : forall A (rows : list (list A)) p t x y, diary rows p t x -> diary rows p t y -> x = y.
Proof. intros A rows p t x y (r & H1 & H2) (r' & H3 & H4). unfold at_ in *. congruence. Qed.

Lemma table_ext : forall A (rows rows' : list (list A)) n, length rows' = length rows -> full n rows -> full n rows' ->
  (forall p t x, diary rows p t x -> diary rows' p t x) -> rows' = rows.
Proof.
  intros A rows rows' n L F F' H. apply nth_list_ext. intro p. destruct (nth_error rows p) as [r|] eqn:E.
  - destruct (lt_at _ rows' p) as [r' E']; [rewrite L; eapply at_lt; exact E|]. unfold at_ in E'. rewrite E'. f_equal.
    apply nth_list_ext. intro t. pose proof (F p r E) as Lr. pose proof (F' p r' E') as Lr'.
    destruct (nth_error r t) as [x|] eqn:Et; [|apply nth_error_None; apply nth_error_None in Et; lia].
    destruct (H p t x) as (r2 & H1 & H2); [exists r; auto|]. unfold at_ in *. congruence.
  - apply nth_error_None. rewrite L. apply nth_error_None. auto.
Qed.

Lemma diary_lt : forall A (rows : list (list A)) n p t x, full n rows -> diary rows p t x -> p < length rows /\ t < n.
Proof. intros A rows n p t x F (r & H1 & H2). split; [eapply at_lt; eauto|]. rewrite <- (F p r H1). eapply at_lt; eauto. Qed.

Lemma diary_in : forall A (rows : list (list A)) n p t, full n rows -> p < length rows -> t < n -> exists x, diary rows p t x.
Proof.
  intros A rows n p t F Hp Ht. destruct (lt_at _ rows p Hp) as [r Hr]. destruct (lt_at _ r t) as [x Hx]; [rewrite (F p r Hr); auto|].
  exists x, r. auto.
Qed.

(** The stay that goes on at time [t] began at some time. *)
Lemma stay_began : forall (rows : list (list nat)) n p t x, full n rows -> diary rows p t x ->
  exists i, i <= t /\ begins rows i p x /\ forall j, i <= j -> j <= t -> diary rows p j x.
Proof.
  intros rows n p t x F. induction t as [|t IH]; intro H.
  - exists 0. split; auto. split; [split; auto|]. intros j _ Hj. replace j with 0 by lia. auto.
  - destruct (diary_lt F H) as [Hp Ht]. destruct (@diary_in _ rows n p t F Hp ltac:(lia)) as [y Hy].
    destruct (Nat.eq_dec x y) as [<-|Hne].
    + destruct (IH Hy) as (i & Hi & Hb & Hs). exists i. split; [lia|]. split; auto. intros j H1 H2.
      destruct (Nat.eq_dec j (S t)) as [->|]; auto. apply Hs; lia.
    + exists (S t). split; auto. split.
      * split; auto. right. replace (S t - 1) with t by lia. intro Hx. apply Hne. eapply diary_fun; eauto.
      * intros j H1 H2. replace j with (S t) by lia. auto.
Qed.

Lemma describes_state : forall rows n times persons news initial p t x, full n rows -> describes rows times persons news ->
  diary rows p t x -> state_at times persons news initial p t x.
Proof.
  intros rows n times persons news initial p t x F (_ & _ & D) H. destruct (stay_began F H) as (i & Hi & Hb & Hs). left.
  destruct (last_val p (lines_at i times persons news)) as [w|] eqn:E.
  - apply last_val_some in E. destruct E as (k & Hk & Hm).
    assert (w = x). { assert (Hw : begins rows i p w) by (apply D; eauto). destruct Hw as [Hw _], Hb as [Hb _]. eapply diary_fun; eauto. } subst w.
    exists k, i. split; auto. split; auto. intros k' i' x' Hk' Hi'.
    assert (Hb' : begins rows i' p x') by (apply D; eauto).
    destruct (Nat.lt_trichotomy i' i) as [|[->|Hlt]]; [left; auto|right; split; auto; eapply Hm; eauto|]. exfalso.
    destruct Hb' as [H1 [->|H2]]; [lia|]. apply H2.
    replace x' with x by (eapply diary_fun; [apply (Hs i'); lia|eauto]). apply Hs; lia.
  - exfalso. apply D in Hb. destruct Hb as (k & Hk). apply (proj1 (last_val_none p _) E x). apply lines_at_in. eauto.
Qed.

Lemma describes_times : forall rows n times persons news, full n rows -> describes rows times persons news ->
  forall k t, at_ times k t -> exists p x, at_ persons k p /\ at_ news k x /\ begins rows t p x.
Proof.
  intros rows n times persons news F (L1 & L2 & D) k t H. pose proof (at_lt _ _ _ _ H) as L.
  destruct (lt_at _ persons k) as [p Hp]; [lia|]. destruct (lt_at _ news k) as [x Hx]; [lia|].
  exists p, x. split; auto. split; auto. apply D. exists k. repeat split; auto.
Qed.

Lemma describes_lines : forall rows n times persons news, full n rows -> describes rows times persons news ->
  (forall t, In t times -> t < n) /\ (forall p, In p persons -> p < length rows) /\ (forall x, In x news -> exists t p, diary rows p t x).
Proof.
  intros rows n times persons news F D. pose proof (describes_times F D) as T. destruct D as (L1 & L2 & _).
  assert (G : forall k, k < length times -> exists t p x, at_ times k t /\ at_ persons k p /\ at_ news k x /\ begins rows t p x).
  { intros k Hk. destruct (lt_at _ times k Hk) as [t Ht]. destruct (T k t Ht) as (p & x & H). exists t, p, x. tauto. }
  split; [|split]; intros y Hy; apply in_at in Hy; destruct Hy as [k Hk]; pose proof (at_lt _ _ _ _ Hk) as L;
    (destruct (G k) as (t & p & x & H1 & H2 & H3 & H4 & _); [lia|]).
  - assert (t = y) by (eapply at_fun; eauto). subst. exact (proj2 (diary_lt F H4)).
  - assert (p = y) by (eapply at_fun; eauto). subst. exact (proj1 (diary_lt F H4)).
  - assert (x = y) by (eapply at_fun; eauto). subst. eauto.
Qed.

Lemma describes_sizes : forall rows n times persons news np, full n rows -> 0 < n -> rows <> [] -> describes rows times persons news ->
  (np = None \/ np = Some (length rows)) -> size (Some n) times n /\ size np persons (length rows) /\ news <> [].
Proof.
  intros rows n times persons news np F Hn Hne D Hnp. destruct (describes_lines F D) as (D1 & D2 & D3).
  assert (Hl : forall p, p < length rows -> exists k x, trans times persons news k 0 p x).
  { intros p Hp. destruct (@diary_in _ rows n p 0 F Hp Hn) as [x Hx]. destruct D as (_ & _ & D).
    destruct (proj2 (D 0 p x)) as [k Hk]; [split; auto|]. eauto. }
  assert (Hlen : 0 < length rows) by (destruct rows; [congruence|simpl; lia]).
  destruct (Hl (length rows - 1) ltac:(lia)) as (k & x & K1 & K2 & K3).
  apply at_in in K1. apply at_in in K2. apply at_in in K3.
  split; [|split].
  - split; auto. split; auto. intros ->; destruct K1.
  - destruct Hnp as [->| ->]; cbn.
    + split; auto.
    + split; auto. split; auto. intros ->; destruct K2.
  - intros ->; destruct K3.
Qed.

Lemma round_trip : forall rows n times persons news initial np ns, 0 < n -> rows <> [] -> full n rows ->
  describes rows times persons news -> first_states rows initial ->
  (np = None \/ np = Some (length rows)) ->
  (ns = None \/ exists k, ns = Some k /\ forall p t x, diary rows p t x -> x < k) ->
  transitions_to_states times persons news (Some initial) (Some n) np ns = Ok rows.
Proof.
  intros rws n times persons news initial np ns Hn Hne F D [Li Hi] Hnp Hns.
  destruct (describes_sizes F Hn Hne D Hnp) as (S1 & S2 & S3). destruct (describes_lines F D) as (D1 & D2 & D3).
  assert (Hk : exists k, states_size ns news (Some initial) = Ok k).
  { destruct Hns as [->|(k & -> & Hk)].
    - exists (S (list_max_nat news)). unfold states_size, size_of. rewrite (py_max_total S3). reflexivity.
    - exists k. apply states_size_ok. split; [split; auto; split; auto; intros x Hx; destruct (D3 x Hx) as (t & p & H); eauto|].
      right. exists initial. split; auto. split; [destruct initial; [simpl in Li; destruct rws; [congruence|simpl in *; lia]|congruence]|].
      intros x Hx. apply in_at in Hx. destruct Hx as [p Hp]. eapply Hk. apply Hi; eauto. }
  destruct Hk as [k Hk]. pose proof D as (L1 & L2 & DD).
  destruct (@states_total times persons news (Some initial) (Some n) np ns n (length rws) k S1 S2 Hk L1 L2 Li) as [out E].
  { intros j p x Hj. cbn. assert (Hb : begins rws 0 p x) by (apply DD; eauto). destruct Hb as [Hb _].
    destruct (lt_at _ initial p) as [y Hy]; [rewrite Li; exact (proj1 (diary_lt F Hb))|].
    pose proof (Hi p y Hy) as Hy'. replace x with y by (eapply diary_fun; eauto). auto. }
  rewrite E. f_equal. destruct (states_inv _ _ _ _ _ _ _ E) as (n' & m & k' & T1 & T2 & _ & _ & _ & _ & _ & L & F' & V).
  cbn in T1. destruct T1 as [-> _].
  assert (Em : m = length rws). { apply size_ok in T2. apply size_ok in S2. congruence. } rewrite Em in *. clear Em.
  apply (@table_ext _ rws out n); auto. intros p t x Hd. apply V. destruct (diary_lt F Hd). split; auto. split; auto.
  exact (@describes_state rws n times persons news _ p t x F D Hd).
Qed.

(** ** Matrices *)

Lemma count_pairs : forall k old new, length new = length old -> (forall x, In x old -> x < k) -> (forall x, In x new -> x < k) ->
  exists m, count_matrix k old new = Ok m /\ shape2 k k m /\
    forall a row, at_ m a row -> row = map (pairs old new a) (seq 0 k).
Proof.
  intros k old new L H1 H2. unfold count_matrix. set (l := combine old new).
  destruct (@assign_counts _ _ _ _ keyed2 dec2 cmp2 order2 l (zeros2 k k)) as (m & Hm & V & _).
  { intros [a b] Hin. apply zeros2_get; [apply H1; eapply in_combine_l; eauto|apply H2; eapply in_combine_r; eauto]. }
  exists m. split; auto. assert (Hs : shape2 k k m) by (eapply assign2_shape; eauto; apply zeros2_shape). split; auto.
  intros a row Ha. apply (row_from_get a _ Hs Ha). intros b Hb.
  assert (Han : a < k) by (destruct Hs as [Hs _]; rewrite <- Hs; apply nth_error_Some; unfold at_ in Ha; congruence).
  rewrite (V (a, b)) by (apply zeros2_get; auto). f_equal. unfold cntq, pairs. do 3 f_equal. unfold count_of. fold l.
  apply f_equal, filter_ext. intros [x y]. cbn [fst snd]. apply is_eq_order; [apply order2|].
  rewrite andb_true_iff, !Nat.eqb_eq. split; [intros [-> ->]; auto|intro E; injection E; auto].
Qed.

Lemma count_pairs_err : forall k old new, length new = length old -> (exists x, In x old /\ k <= x) -> count_matrix k old new = Err IndexError.
Proof.
  intros k old new L (x & Hx & Hk). unfold count_matrix. apply in_at in Hx. destruct Hx as [j Hj].
  destruct (lt_at _ new j) as [y Hy]; [rewrite L; eapply at_lt; eauto|].
  apply (assign_err keyed2 dec2). exists (x, y). eexists. split.
  - unfold uniq_counts. apply in_map_iff. eexists. split; [reflexivity|]. apply uniq_in; [apply order2|].
    apply nth_error_In with j. rewrite combine_nth_error. unfold at_ in *. rewrite Hj, Hy. auto.
  - destruct (get2 (zeros2 k k) (x, y)) eqn:E; auto.
    assert (N : get2 (zeros2 k k) (x, y) <> None) by congruence. apply (get2_shape _ _ (zeros2_shape k k)) in N. lia.
Qed.

Lemma pairs_sum : forall k old new a, length new = length old -> (forall x, In x new -> x < k) ->
  (qsum (map (pairs old new a) (seq 0 k)) == seen old a)%Q.
Proof.
  intros k old new a L H.
  transitivity (qn (nsum (map (fun b => length (filter (fun xy : nat * nat => ((fst xy =? a) && (snd xy =? b))%bool) (combine old new))) (seq 0 k)))); [apply qsum_qn|].
  rewrite (@split_count _ (fun xy : nat * nat => fst xy =? a) snd).
  - unfold seen, qn. replace (length (filter (fun x => x =? a) old)) with (length (filter (fun xy : nat * nat => fst xy =? a) (combine old new))); [reflexivity|].
    clear H. revert new L. induction old as [|x old IH]; intros [|y new] L; simpl in *; try discriminate; auto.
    destruct (x =? a); simpl; rewrite IH by lia; auto.
  - intros [x y] Hin. apply H. eapply in_combine_r; eauto.
Qed.

Lemma nan_div_share : forall x s whole, (s == whole)%Q -> share x whole (nan_div x s).
Proof.
  intros x s whole E. unfold nan_div. destruct (Qeq_bool s 0) eqn:B; split; intro H.
  - apply Qeq_bool_iff in B. lra.
  - reflexivity.
  - eexists. split; [reflexivity|]. rewrite E. reflexivity.
  - apply Qeq_bool_neq in B. exfalso. apply B. lra.
Qed.

Lemma to_probs_at : forall m a row q b, at_ (to_probs m) a row -> at_ row b q ->
  exists row0 x, at_ m a row0 /\ at_ row0 b x /\ length row = length row0 /\ q = nan_div x (qsum row0).
Proof.
  intros m a row q b Ha Hb. unfold to_probs in Ha. apply at_map in Ha. destruct Ha as (r0 & H0 & ->).
  apply at_map in Hb. destruct Hb as (x & Hx & ->). exists r0, x. rewrite map_length. auto.
Qed.

Lemma count_all : forall k cols old m, (forall x, In x old -> x < k) -> length old = m ->
  (forall c x, In c cols -> In x c -> x < k) -> full m cols ->
  exists ms, count_matrices k old cols = Ok ms /\ length ms = length cols /\
    forall t c, at_ ms t c -> exists o s, at_ (old :: cols) t o /\ at_ cols t s /\ count_matrix k o s = Ok c.
Proof.
  induction cols as [|s cols IH]; intros old m Ho Lo Hc F; cbn [count_matrices].
  - exists []. repeat split; auto. intros [|t] c H; discriminate.
  - assert (Ls : length s = m) by (apply (F 0); reflexivity).
    destruct (@count_pairs k old s) as (c0 & E0 & _); [congruence|auto|intros; apply (Hc s); auto; left; auto|]. rewrite E0. cbn [bind].
    destruct (IH s m) as (ms & E & L & V); auto.
    { intros; apply (Hc s); auto; left; auto. }
    { intros; eapply Hc; eauto; right; eauto. }
    { intros j c Hj. apply (F (S j)). auto. }
    rewrite E. cbn [bind]. exists (c0 :: ms). split; auto. split; [simpl; lia|].
    intros [|t] c H.
    + exists old, s. repeat split; auto. unfold at_ in H. simpl in H. congruence.
    + destruct (V t c H) as (o & s' & H1 & H2 & H3). exists o, s'. auto.
Qed.

Lemma taken_source : forall algo n t, algo <> AlgoUnknown ->
  source algo n t = taken (match algo with AlgoLast => true | _ => false end) n t.
Proof. intros [] n [|t] H; reflexivity. Qed.

Definition is_last (algo : tpm_algo) : bool := match algo with AlgoLast => true | _ => false end.

Lemma replay_cols : forall times persons news initial n cols, replay times persons news initial (seq 0 n) = Ok cols ->
  cols_states times persons news initial n (length initial) cols.
Proof.
  intros times persons news initial n cols E. destruct (@replay_ok times persons news initial n 0 initial cols (before_zero times persons news initial) E) as [Lc V].
  split; auto. split.
  - intros j c Hc. apply V in Hc. destruct Hc as [Hc _]. auto.
  - intros t c p x Hc. apply V in Hc. apply (before_state Hc).
Qed.

Lemma state_known : forall times persons news initial p t x, state_at times persons news initial p t x -> In x news \/ In x initial.
Proof.
  intros times persons news initial p t x [(k & i & (_ & _ & H) & _)|[_ H]]; [left|right]; eapply at_in; eauto.
Qed.

Lemma matrices_inv : forall initial times persons news nt np ns algo ms cols,
  build_transition_matrices initial times persons news nt np ns algo = Ok (ms, cols) ->
  exists n m k, size nt times n /\ size np persons m /\ size ns news k /\ length initial = m /\ starts_as times persons news initial /\
    algo <> AlgoUnknown /\ cols_states times persons news initial n m cols /\ length ms = n /\
    forall t mat, at_ ms t mat -> exists old new, at_ (initial :: cols) (taken (is_last algo) n t) old /\
      at_ cols (taken (is_last algo) n t) new /\ length mat = k /\
      forall a row, at_ mat a row -> length row = k /\ forall b q, at_ row b q -> share (pairs old new a b) (seen old a) q.
Proof.
  intros initial times persons news nt np ns algo ms cols H. unfold build_transition_matrices in H.
  destruct (size_of nt times) as [n|] eqn:E1; [|discriminate]. cbn [bind] in H.
  destruct (size_of np persons) as [m|] eqn:E2; [|discriminate]. cbn [bind] in H.
  destruct (states_size ns news (Some initial)) as [k|] eqn:E3; [|discriminate]. cbn [bind] in H.
  destruct (require (length initial =? m)) as [[]|] eqn:E5; [|discriminate]. cbn [bind] in H. apply require_ok, Nat.eqb_eq in E5.
  destruct (same_lengths times persons news) as [[]|] eqn:E4; [|discriminate]. cbn [bind] in H.
  destruct (check_start times persons news initial) as [[]|] eqn:E6; [|discriminate]. cbn [bind] in H. apply check_start_ok in E6.
  destruct (replay times persons news initial (seq 0 n)) as [cols'|] eqn:E7; [|discriminate]. cbn [bind] in H.
  destruct (count_matrices k initial cols') as [cs|] eqn:E8; [|discriminate]. cbn [bind] in H.
  destruct (first_tpm_change algo cs) as [cs'|] eqn:E9; [|discriminate]. cbn [bind] in H. injection H as <- <-.
  apply size_ok in E1. apply size_ok in E2. apply states_size_ok in E3. destruct E3 as [E3 E3'].
  apply replay_cols in E7. rewrite E5 in E7. destruct E7 as (Lc & F & V).
  assert (Ha : algo <> AlgoUnknown) by (intros ->; discriminate).
  assert (Hn : 0 < n).
  { destruct nt; cbn in E1; destruct E1 as (A1 & A2 & A3); [|lia]. destruct times as [|y times]; [congruence|]. specialize (A3 y (or_introl eq_refl)). lia. }
  assert (Hnews : forall x, In x news -> x < k) by (destruct ns; cbn in E3; tauto).
  assert (Hinit : forall x, In x initial -> x < k).
  { intros x Hx. destruct (le_lt_dec k x) as [Hle|]; auto. exfalso. destruct cols' as [|c cols']; [simpl in Lc; lia|].
    cbn [count_matrices] in E8. rewrite count_pairs_err in E8; [discriminate| |eauto]. rewrite E5. apply (F 0). reflexivity. }
  assert (Hcols : forall c x, In c cols' -> In x c -> x < k).
  { intros c x Hc Hx. apply in_at in Hc. destruct Hc as [t Ht]. apply in_at in Hx. destruct Hx as [p Hp]. apply (V t c p x Ht) in Hp.
    destruct Hp as [_ Hp]. apply state_known in Hp. destruct Hp; auto. }
  destruct (@count_all k cols' initial m Hinit E5 Hcols F) as (cs0 & E8' & Lcs & W). rewrite E8 in E8'. injection E8' as <-.
  destruct (@first_change_spec _ algo cs Ha) as (cs2 & E9' & L2 & U); [intros ->; simpl in Lcs; lia|]. rewrite E9 in E9'. injection E9' as <-.
  exists n, m, k. repeat (split; [assumption|]). split; [split; auto|]. split; [rewrite map_length; lia|].
  intros t mat Hmat. apply at_map in Hmat. destruct Hmat as (c & Hc & ->). apply U in Hc. rewrite Lcs, Lc in Hc.
  fold (is_last algo). rewrite taken_source in Hc by auto. fold (is_last algo) in Hc.
  set (t' := taken (is_last algo) n t) in *. destruct (W t' c Hc) as (old & new & O1 & O2 & O3). exists old, new. split; auto. split; auto.
  assert (Lold : length old = m). { destruct t'; unfold at_ in O1; simpl in O1; [congruence|eapply F; exact O1]. }
  assert (Lnew : length new = m) by (eapply F; eauto).
  assert (Hold : forall x, In x old -> x < k). { destruct t'; unfold at_ in O1; simpl in O1; [injection O1 as <-; auto|intros; eapply Hcols; eauto; eapply nth_error_In; eauto]. }
  assert (Hnew : forall x, In x new -> x < k) by (intros; eapply Hcols; eauto; eapply at_in; eauto).
  destruct (@count_pairs k old new) as (c' & G1 & G2 & G3); [congruence|auto|auto|]. rewrite O3 in G1. injection G1 as <-.
  split; [unfold to_probs; rewrite map_length; apply G2|]. intros a row Hrow. split.
  - unfold to_probs in Hrow. apply at_map in Hrow. destruct Hrow as (r0 & Hr0 & ->). rewrite map_length, (G3 a r0 Hr0), map_length, seq_length. auto.
  - intros b q Hq. destruct (to_probs_at _ Hrow Hq) as (r0 & x & K1 & K2 & _ & ->). rewrite (G3 a r0 K1) in K2 |- *.
    apply tab_at in K2. destruct K2 as [_ ->]. apply nan_div_share. apply pairs_sum; [congruence|auto].
Qed.

Lemma matrices_total : forall initial times persons news nt np ns algo n m k,
  size nt times n -> size np persons m -> size ns news k -> length initial = m -> length persons = length times -> length news = length times ->
  starts_as times persons news initial -> (forall x, In x initial -> x < k) -> algo <> AlgoUnknown ->
  exists ms cols, build_transition_matrices initial times persons news nt np ns algo = Ok (ms, cols).
Proof.
  intros initial times persons news nt np ns algo n m k H1 H2 H3 Li L1 L2 Hs Hi Ha. unfold build_transition_matrices.
  assert (Hp : forall p, In p persons -> p < m) by (destruct np; cbn in H2; tauto).
  assert (Hn : 0 < n).
  { destruct nt; cbn in H1; destruct H1 as (A1 & A2 & A3); [|lia]. destruct times as [|y times]; [congruence|]. specialize (A3 y (or_introl eq_refl)). lia. }
  assert (Hnews : forall x, In x news -> x < k) by (destruct ns; cbn in H3; tauto).
  assert (Hne : initial <> []).
  { intros ->. simpl in Li. subst m. destruct persons as [|p ps]; [|specialize (Hp p (or_introl eq_refl)); lia].
    destruct np; cbn in H2; [destruct H2 as (_ & H2 & _); congruence|destruct H2 as (H2 & _); auto]. }
  apply size_ok in H1, H2. rewrite H1. cbn [bind]. rewrite H2. cbn [bind].
  rewrite (proj2 (states_size_ok ns news (Some initial) k)); [|split; auto; destruct ns; [right; exists initial; auto|left; auto]]. cbn [bind].
  rewrite Li, Nat.eqb_refl. cbn [require bind]. rewrite (proj2 (same_lengths_ok times persons news)) by auto. cbn [bind].
  rewrite (proj2 (check_start_ok _ _ _ _) Hs). cbn [bind].
  destruct (@replay_total times persons news (seq 0 n) initial) as [cols E]; [rewrite Li; auto|].
  rewrite E. cbn [bind]. apply replay_cols in E. rewrite Li in E. destruct E as (Lc & F & V).
  destruct (@count_all k cols initial m Hi Li) as (cs & E8 & Lcs & _); auto.
  { intros c x Hc Hx. apply in_at in Hc. destruct Hc as [t Ht]. apply in_at in Hx. destruct Hx as [p Hp']. apply (V t c p x Ht) in Hp'.
    destruct Hp' as [_ Hp']. apply state_known in Hp'. destruct Hp'; auto. }
  rewrite E8. cbn [bind]. destruct (@first_change_spec _ algo cs Ha) as (cs2 & E9 & _); [intros ->; simpl in Lcs; lia|].
  rewrite E9. cbn [bind]. eauto.
Qed.

(** An initial state that is not counted is refused when the number of states is not given. *)
Lemma matrices_index : forall initial times persons news nt np algo n m k,
  size nt times n -> size np persons m -> size None news k -> length initial = m -> length persons = length times -> length news = length times ->
  starts_as times persons news initial -> (exists x, In x initial /\ k <= x) ->
  build_transition_matrices initial times persons news nt np None algo = Err IndexError.
Proof.
  intros initial times persons news nt np algo n m k H1 H2 H3 Li L1 L2 Hs Hi. unfold build_transition_matrices.
  assert (Hp : forall p, In p persons -> p < m) by (destruct np; cbn in H2; tauto).
  assert (Hn : 0 < n).
  { destruct nt; cbn in H1; destruct H1 as (A1 & A2 & A3); [|lia]. destruct times as [|y times]; [congruence|]. specialize (A3 y (or_introl eq_refl)). lia. }
  apply size_ok in H1, H2. rewrite H1. cbn [bind]. rewrite H2. cbn [bind].
  rewrite (proj2 (states_size_ok None news (Some initial) k)); [|split; auto]. cbn [bind].
  rewrite Li, Nat.eqb_refl. cbn [require bind]. rewrite (proj2 (same_lengths_ok times persons news)) by auto. cbn [bind].
  rewrite (proj2 (check_start_ok _ _ _ _) Hs). cbn [bind].
  destruct (@replay_total times persons news (seq 0 n) initial) as [cols E]; [rewrite Li; auto|].
  rewrite E. cbn [bind]. apply replay_cols in E. rewrite Li in E. destruct E as (Lc & F & _).
  destruct cols as [|c cols]; [simpl in Lc; lia|]. cbn [count_matrices].
  rewrite count_pairs_err; [reflexivity| |exact Hi]. rewrite Li. apply (F 0). reflexivity.
Qed.

Lemma matrices_unknown : forall initial times persons news nt np ns n m k,
  size nt times n -> size np persons m -> size ns news k -> length initial = m -> length persons = length times -> length news = length times ->
  starts_as times persons news initial -> (forall x, In x initial -> x < k) ->
  build_transition_matrices initial times persons news nt np ns AlgoUnknown = Err TypeError.
Proof.
  intros initial times persons news nt np ns n m k H1 H2 H3 Li L1 L2 Hs Hi.
  destruct (@matrices_total initial times persons news nt np ns AlgoNothing n m k) as (ms & cols & E); auto; [discriminate|].
  unfold build_transition_matrices in *.
  destruct (size_of nt times); [|discriminate]. cbn [bind] in *.
  destruct (size_of np persons); [|discriminate]. cbn [bind] in *.
  destruct (states_size ns news (Some initial)); [|discriminate]. cbn [bind] in *.
  destruct (require (length initial =? _)); [|discriminate]. cbn [bind] in *.
  destruct (same_lengths times persons news); [|discriminate]. cbn [bind] in *.
  destruct (check_start times persons news initial); [|discriminate]. cbn [bind] in *.
  destruct (replay times persons news initial _); [|discriminate]. cbn [bind] in *.
  destruct (count_matrices _ initial _); [|discriminate]. reflexivity.
Qed.

(** The states at time 0 are the initial ones. *)
Lemma start_state : forall times persons news initial p x, starts_as times persons news initial -> p < length initial ->
  (state_at times persons news initial p 0 x <-> at_ initial p x).
Proof.
  intros times persons news initial p x H Hp. split.
  - intros [(k & i & Hk & Hi & _)|[_ Ha]]; auto. assert (i = 0) by lia. subst. eapply H; eauto.
  - intro Ha. destruct (last_val p (lines_at 0 times persons news)) as [w|] eqn:E.
    + left. apply last_val_some in E. destruct E as (k & Hk & Hm). exists k, 0.
      replace x with w by (eapply at_fun; [eapply H; eauto|auto]). split; auto. split; auto.
      intros k' i' x' Hk' Hi'. assert (i' = 0) by lia. subst. right. split; auto. eapply Hm; eauto.
    + right. split; auto. intros k [|i] x' Hk; [|lia]. exfalso. apply (proj1 (last_val_none p _) E x'). apply lines_at_in. eauto.
Qed.
