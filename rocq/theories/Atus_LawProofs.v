(** * Rows of probabilities, stacked states. *)

From Coq Require Import List ZArith QArith Bool Lia Lqa Arith.
From Verif Require Import Prelude PreludeFacts SpecBase SpecBaseFacts Parse_Model Parse_Spec Parse_Proofs Parse_TpmProofs Parse_SemiProofs
  Atus_Model Atus_Spec Atus_Proofs Atus_StateProofs Atus_MaskProofs Atus_TimedProofs.
Import ListNotations.
Local Open Scope nat_scope.

Definition val (q : option Q) : Q := match q with Some v => v | None => 0%Q end.

Lemma total_vals : forall (g : nat -> Q) row s, (forall b q, at_ row b q -> val q == g (s + b)%nat)%Q ->
  (total (map val row) == total (map g (seq s (length row))))%Q.
Proof.
  induction row as [|q row IH]; intros s H; simpl; [reflexivity|].
  unfold total in *. rewrite (IH (S s)).
  - rewrite (H 0 q) by reflexivity. rewrite Nat.add_0_r. reflexivity.
  - intros b q' Hb. rewrite (H (S b) q' Hb). replace (s + S b) with (S s + b) by lia. reflexivity.
Qed.

Lemma total_div : forall (f : nat -> Q) w l, (total (map (fun b => f b / w) l) == total (map f l) / w)%Q.
Proof. unfold total. induction l as [|b l IH]; simpl; [unfold Qdiv; ring|]. rewrite IH. unfold Qdiv. ring. Qed.

Lemma total_nonneg : forall (f : nat -> Q) l, (forall b, 0 <= f b)%Q -> (0 <= total (map f l))%Q.
Proof. unfold total. induction l as [|b l IH]; intro H; simpl; [lra|]. pose proof (H b). specialize (IH H). lra. Qed.

Lemma share_law : forall k (f : nat -> Q) whole row, length row = k -> (forall b q, at_ row b q -> share (f b) whole q) ->
  (forall b, 0 <= f b)%Q -> (total (map f (seq 0 k)) == whole)%Q -> law row.
Proof.
  intros k f whole row L H Hf S. assert (W : (0 <= whole)%Q) by (rewrite <- S; apply total_nonneg; auto).
  destruct (Qlt_le_dec 0 whole) as [P|P].
  - left. exists (map val row). assert (E : forall b q, at_ row b q -> exists v, q = Some v /\ (v == f b / whole)%Q) by (intros b q Hb; apply (H b q Hb); auto).
    split; [|split].
    + rewrite map_map. rewrite <- (map_id row) at 1. apply map_ext_in. intros q Hq. apply in_at in Hq. destruct Hq as [b Hb]. destruct (E b q Hb) as (v & -> & _). reflexivity.
    + intros b x Hx. unfold at_ in Hx. rewrite nth_error_map in Hx. destruct (nth_error row b) as [q|] eqn:Eq; [|discriminate]. injection Hx as <-.
      destruct (E b q Eq) as (v & -> & Ev). simpl. rewrite Ev. apply Qle_shift_div_l; auto. rewrite Qmult_0_l. apply Hf.
    + rewrite (total_vals (fun b => f b / whole)%Q row 0).
      * rewrite total_div, L, S. field. lra.
      * intros b q Hb. destruct (E b q Hb) as (v & -> & Ev). exact Ev.
  - right. intros q Hq. apply in_at in Hq. destruct Hq as [b Hb]. apply (H b q Hb). lra.
Qed.

Lemma qsum_total : forall l, qsum l = total l.
Proof. reflexivity. Qed.

Lemma pairs_nonneg : forall old new a b, (0 <= pairs old new a b)%Q.
Proof. intros. apply qn_nonneg. Qed.

(** ** The matrices of transitions *)

Lemma initial_known : forall initial times persons news nt np ns algo ms cols k,
  build_transition_matrices initial times persons news nt np ns algo = Ok (ms, cols) -> size ns news k -> forall x, In x initial -> x < k.
Proof.
  intros initial times persons news nt np ns algo ms cols k H Sk. destruct ns as [k'|].
  - unfold build_transition_matrices in H. destruct (size_of nt times) as [n|]; [|discriminate]. destruct (size_of np persons) as [m|]; [|discriminate].
    cbn [bind] in H. destruct (states_size (Some k') news (Some initial)) as [k0|] eqn:E; [|discriminate].
    apply states_size_ok in E. destruct E as (E1 & [E2|(l & E2 & _ & E3)]); [discriminate|]. injection E2 as <-.
    destruct Sk as (-> & _), E1 as (-> & _). auto.
  - assert (G := H). apply matrices_inv in G. destruct G as (n & m & k' & S1 & S2 & S3 & Li & Hs & _ & _).
    destruct (forallb (fun x => x <? k) initial) eqn:B.
    + rewrite forallb_forall in B. intros x Hx. apply Nat.ltb_lt. auto.
    + exfalso. assert (L : length persons = length times /\ length news = length times).
      { unfold build_transition_matrices in H. destruct (size_of nt times); [|discriminate]. destruct (size_of np persons) as [n1|]; [|discriminate].
        cbn [bind] in H. destruct (states_size None news (Some initial)); [|discriminate]. cbn [bind] in H. destruct (require (length initial =? n1)); [|discriminate].
        cbn [bind] in H. destruct (same_lengths times persons news) as [[]|] eqn:E; [|discriminate]. apply same_lengths_ok in E. auto. }
      rewrite (@matrices_index initial times persons news nt np algo n m k) in H; try tauto; try discriminate.
      clear - B. induction initial as [|x l IH]; [discriminate|]. simpl in B. destruct (x <? k) eqn:E.
      * destruct (IH B) as (y & H1 & H2). exists y. split; auto. right; auto.
      * exists x. split; [left; auto|]. apply Nat.ltb_ge in E. auto.
Qed.

Lemma matrices_rows : forall initial times persons news nt np ns algo ms cols t mat a row,
  build_transition_matrices initial times persons news nt np ns algo = Ok (ms, cols) -> at_ ms t mat -> at_ mat a row -> law row.
Proof.
  intros initial times persons news nt np ns algo ms cols t mat a row H Ht Ha. assert (G := H). apply matrices_inv in G.
  destruct G as (n & m & k & S1 & S2 & S3 & Li & Hs & _ & (C1 & C2 & C3) & _ & G).
  destruct (G t mat Ht) as (old & new & Ho & Hn & _ & Hr). destruct (Hr a row Ha) as [Lr Hb].
  assert (Ln : length new = m) by (eapply C2; eauto).
  assert (Lo : length old = m). { unfold at_ in Ho. destruct (taken (is_last algo) n t) as [|t']; simpl in Ho; [congruence|eapply C2; eauto]. }
  eapply (share_law k (pairs old new a) (seen old a)); auto; [apply pairs_nonneg|].
  rewrite <- qsum_total. apply pairs_sum; [congruence|]. intros x Hx. apply in_at in Hx. destruct Hx as [p Hp].
  apply (C3 _ _ p x Hn) in Hp. destruct Hp as [_ Hp]. apply state_known in Hp. destruct Hp as [Hp|Hp].
  - destruct ns; [apply S3 in Hp; exact Hp|apply S3 in Hp; exact Hp].
  - eapply initial_known; eauto.
Qed.

Lemma matrices_first : forall initial times persons news nt np ns ms cols mat a row b q,
  build_transition_matrices initial times persons news nt np ns AlgoNothing = Ok (ms, cols) -> at_ ms 0 mat -> at_ mat a row -> at_ row b q ->
  (In a initial -> exists v, q = Some v /\ v == if a =? b then 1 else 0)%Q /\ (~ In a initial -> q = None).
Proof.
  intros initial times persons news nt np ns ms cols mat a row b q H Ht Ha Hb. assert (G := H). apply matrices_inv in G.
  destruct G as (n & m & k & S1 & S2 & S3 & Li & Hs & _ & (C1 & C2 & C3) & _ & G).
  destruct (G 0 mat Ht) as (old & new & Ho & Hn & _ & Hr). destruct (Hr a row Ha) as [_ Hq]. specialize (Hq b q Hb).
  cbn [is_last taken] in Ho, Hn. unfold at_ in Ho. simpl in Ho. injection Ho as <-.
  assert (E : new = initial).
  { assert (X : forall p x, at_ new p x <-> at_ initial p x).
    { intros p x. rewrite (C3 0 new p x Hn). split.
      - intros [Hp Hx]. apply start_state in Hx; auto. rewrite Li; auto.
      - intros Hx. assert (p < m) by (rewrite <- Li; eapply at_lt; eauto). split; auto. apply start_state; auto. rewrite Li; auto. }
    apply nth_list_ext. intro p. unfold at_ in X. destruct (nth_error new p) as [x|] eqn:E1.
    - symmetry. apply X. auto.
    - destruct (nth_error initial p) as [x|] eqn:E2; auto. apply X in E2. congruence. }
  subst new. clear - Hq. destruct Hq as [Q1 Q2]. 
  assert (P : (pairs initial initial a b == if a =? b then seen initial a else 0)%Q).
  { clear Q1 Q2. unfold pairs, seen. destruct (Nat.eqb_spec a b) as [<-|Hne].
    - replace (length (filter (fun xy : nat * nat => (fst xy =? a) && (snd xy =? a)) (combine initial initial))) with (length (filter (fun x => x =? a) initial)); [reflexivity|].
      induction initial as [|x l IH]; simpl; auto. destruct (x =? a); simpl; rewrite ?IH; auto.
    - replace (length (filter (fun xy : nat * nat => (fst xy =? a) && (snd xy =? b)) (combine initial initial))) with 0; [reflexivity|].
      induction initial as [|x l IH]; simpl; auto. destruct (Nat.eqb_spec x a) as [->|]; simpl; auto. destruct (Nat.eqb_spec a b); [congruence|auto]. }
  split; intro Hin.
  - assert (W : (0 < seen initial a)%Q).
    { unfold seen. apply qn_pos. assert (Hf : In a (filter (fun x => x =? a) initial)) by (apply filter_In; split; auto; apply Nat.eqb_refl).
      destruct (filter (fun x => x =? a) initial); [destruct Hf|simpl; lia]. }
    destruct (Q1 W) as (v & -> & Hv). exists v. split; auto. rewrite Hv, P. destruct (a =? b); field; lra.
  - apply Q2. unfold seen. replace (length (filter (fun x => x =? a) initial)) with 0; [reflexivity|].
    clear - Hin. induction initial as [|x l IH]; simpl; auto. destruct (Nat.eqb_spec x a) as [->|]; [exfalso; apply Hin; left; auto|]. apply IH.
    intro; apply Hin; right; auto.
Qed.

(** ** Time dependent matrices *)

Lemma persons_nonneg : forall (test : list nat -> bool) rws, (0 <= persons_with test rws)%Q.
Proof. intros. apply qn_nonneg. Qed.

Lemma timed_probs : forall k m (w : nat -> nat -> Q) a row, at_ (to_probs (tab k (fun a => tab m (w a)))) a row ->
  a < k /\ length row = m /\ forall b q, at_ row b q -> b < m /\ q = nan_div (w a b) (qsum (tab m (w a))).
Proof.
  intros k m w a row Ha. pose proof (at_lt _ _ _ _ Ha) as La. unfold to_probs, tab in La. rewrite !map_length, seq_length in La.
  rewrite probs_tab3 in Ha. apply tab_at in Ha. destruct Ha as [_ ->]. split; auto. split; [unfold tab; rewrite map_length, seq_length; auto|].
  intros b q Hb. apply tab_at in Hb. auto.
Qed.

Lemma timed_out : forall rws n times persons news initial nt np ns k algo, 0 < n -> full n rws -> rws <> [] ->
  describes rws times persons news -> by_person_strictly times persons -> first_states rws initial ->
  size nt times n -> (np = None \/ np = Some (length rws)) -> size ns news k -> (forall p t x, diary rws p t x -> x < k) ->
  algo <> AlgoUnknown ->
  exists moves stays, build_timed initial times persons news nt np ns algo = Ok (moves, stays) /\
    length moves = n /\ length stays = n /\
    (forall t mat, at_ moves t mat -> length mat = k /\ forall a row, at_ mat a row -> length row = k /\ law row /\
       forall b q, at_ row b q -> let t' := taken (is_last algo) n t in
         share (persons_with (fun r => leaves n t' a r && is_at t' b r)%bool rws) (persons_with (leaves n t' a) rws) q) /\
    (forall t mat, at_ stays t mat -> length mat = k /\ forall s row, at_ mat s row -> length row = S n /\ law row /\
       forall d q, at_ row d q -> let t' := taken (is_last algo) n t in
         share (persons_with (fun r => stay_begins t' s r && stay_known n t' s r && (stay_length n t' s r =? d))%bool rws)
           (persons_with (fun r => stay_begins t' s r && stay_known n t' s r)%bool rws) q).
Proof.
  intros rws n times persons news initial nt np ns k algo Hn F Hne D Hs Hi S1 Hnp S3 Hk Ha.
  eexists. eexists. split; [apply (@timed_spec rws n times persons news initial nt np ns k algo); auto|].
  assert (T : forall t, t < n -> source algo n t < n) by (intros t Ht; destruct algo, t; simpl in *; lia || congruence).
  split; [apply tab_length|]. split; [apply tab_length|]. split.
  - intros t mat Ht. apply tab_at in Ht. destruct Ht as [Lt ->]. split; [unfold to_probs; rewrite map_length; apply tab_length|].
    intros a row Hr. apply timed_probs in Hr. destruct Hr as (La & Lr & Hr). rewrite (eq_sym (taken_source n t Ha) : taken (is_last algo) n t = source algo n t).
    assert (G : forall b q, at_ row b q -> share (moves_of n rws (source algo n t) a b) (persons_with (leaves n (source algo n t) a) rws) q).
    { intros b q Hb. destruct (Hr b q Hb) as [_ ->]. apply nan_div_share. apply moves_sum; auto. }
    split; auto. split; [|exact G]. eapply share_law; [exact Lr|exact G|intro; apply persons_nonneg|]. rewrite <- qsum_total. apply moves_sum; auto.
  - intros t mat Ht. apply tab_at in Ht. destruct Ht as [Lt ->]. split; [unfold to_probs; rewrite map_length; apply tab_length|].
    intros s row Hr. apply timed_probs in Hr. destruct Hr as (La & Lr & Hr). rewrite (eq_sym (taken_source n t Ha) : taken (is_last algo) n t = source algo n t).
    assert (G : forall d q, at_ row d q -> share (stays_of n rws (source algo n t) s d)
       (persons_with (fun r => stay_begins (source algo n t) s r && stay_known n (source algo n t) s r)%bool rws) q).
    { intros d q Hd. destruct (Hr d q Hd) as [_ ->]. apply nan_div_share. apply stays_sum; auto. }
    split; auto. split; [|exact G]. eapply share_law; [exact Lr|exact G|intro; apply persons_nonneg|]. rewrite <- qsum_total. apply stays_sum; auto.
Qed.

Lemma timed_unsorted : forall initial times persons news nt np ns algo n m k,
  size nt times n -> size np persons m -> size ns news k -> length initial = m -> length persons = length times -> length news = length times ->
  starts_as times persons news initial -> (forall x, In x initial -> x < k) -> ~ by_person_strictly times persons ->
  build_timed initial times persons news nt np ns algo = Err AssertionError.
Proof.
  intros initial times persons news nt np ns algo n m k S1 S2 S3 Li L1 L2 Hs Hk Hb. unfold build_timed.
  apply size_ok in S1. assert (Hm : m <> 0).
  { intros ->. destruct np; destruct S2 as (A & B & C); [subst; destruct persons as [|p l]; [congruence|]; specialize (C p (or_introl eq_refl)); lia|lia]. }
  apply size_ok in S2. rewrite S1, S2. cbn [bind].
  rewrite (proj2 (states_size_ok ns news (Some initial) k)).
  2:{ split; auto. destruct ns; [right; exists initial|left; auto]. split; auto. split; auto. destruct initial; [simpl in Li; congruence|discriminate]. }
  cbn [bind]. rewrite Li, Nat.eqb_refl. cbn [require bind]. rewrite (proj2 (same_lengths_ok times persons news)) by auto. cbn [bind].
  rewrite (proj2 (check_start_ok _ _ _ _)) by auto. cbn [bind].
  destruct (sorted_persons persons) eqn:E1; [|reflexivity]. cbn [require bind]. destruct (sorted_times true times persons) eqn:E2; [|reflexivity].
  exfalso. apply Hb. apply (sorted_iff true times persons L1). rewrite E1, E2. reflexivity.
Qed.

(** ** Stacked states *)

Lemma count_number : forall s row, count_nat s row = length (filter (Nat.eqb s) row).
Proof. induction row as [|x row IH]; simpl; auto. destruct (s =? x); simpl; rewrite IH; auto. Qed.

Lemma stack_size : forall ns states k, size ns (concat states) k ->
  match ns with Some k => Ok k | None => bind (py_max (concat states)) (fun m => Ok (S m)) end = Ok k.
Proof.
  intros [k'|] states k H; [destruct H as (-> & _); reflexivity|]. destruct H as (H1 & H2 & H3).
  destruct (py_max (concat states)) as [m|e] eqn:E.
  - apply py_max_ok in E. destruct E as [E1 ->]. simpl. f_equal.
    pose proof (H3 _ (list_max_in E1)). pose proof (list_max_ge _ _ H1). lia.
  - unfold py_max in E. destruct (concat states); [destruct H1|discriminate].
Qed.

Lemma bin_row : forall row k, (forall x, In x row -> x < k) -> bincount row k = tab k (fun s => count_nat s row).
Proof.
  intros row k H. unfold bincount, tab. replace (Nat.max k _) with k; auto. destruct row as [|x row]; [lia|].
  assert (list_max_nat (x :: row) < k) by (apply H; apply list_max_in; discriminate). lia.
Qed.

Lemma store_same : forall A n (l : list (list A)), (forall r, In r l -> length r = n) -> mapM (store_row n) l = Ok l.
Proof.
  induction l as [|r l IH]; intro H; simpl; auto. unfold store_row at 1. rewrite (H r) by (left; auto). rewrite Nat.eqb_refl. cbn [bind].
  rewrite IH by (intros; apply H; right; auto). reflexivity.
Qed.

Lemma total_numbers : forall k row, (forall x, In x row -> x < k) -> (total (tab k (fun s => number_in s row)) == inject_Z (Z.of_nat (length row)))%Q.
Proof.
  intros k row H. rewrite <- qsum_total. unfold tab, number_in.
  change (qsum (map (fun s => qn (length (filter (Nat.eqb s) row))) (seq 0 k)) == qn (length row))%Q. rewrite qsum_qn.
  rewrite <- (count_sum row k) by auto. erewrite nsum_map_ext; [reflexivity|]. intros s _. simpl. rewrite count_number. reflexivity.
Qed.

Lemma stack_out : forall states ns k p, states <> [] -> full p states -> size ns (concat states) k ->
  exists out, stack_states states ns = Ok out /\ length out = length states /\
    forall t row, at_ out t row -> exists st, at_ states t st /\ length row = k /\ law row /\
      forall s q, at_ row s q -> share (number_in s st) (inject_Z (Z.of_nat p)) q.
Proof.
  intros states ns k p Hne F Sk. unfold stack_states. rewrite (stack_size _ _ _ Sk). cbn [bind].
  assert (Hk : forall st x, In st states -> In x st -> x < k).
  { intros st x H1 H2. assert (In x (concat states)) by (apply in_concat; eauto). destruct ns; apply Sk; auto. }
  assert (E : map (fun row => map (fun c => inject_Z (Z.of_nat c)) (bincount row k)) states = map (fun row => tab k (fun s => number_in s row)) states).
  { apply map_ext_in. intros st Hst. rewrite bin_row by eauto. unfold tab. rewrite map_map. apply map_ext. intro s. rewrite count_number. reflexivity. }
  rewrite E. destruct states as [|st0 sts]; [congruence|]. cbn [map]. rewrite tab_length.
  change (tab k (fun s => number_in s st0) :: map (fun row => tab k (fun s => number_in s row)) sts) with (map (fun row => tab k (fun s => number_in s row)) (st0 :: sts)).
  rewrite store_same by (intros r Hr; apply in_map_iff in Hr; destruct Hr as (x & <- & _); apply tab_length).
  cbn [bind]. eexists. split; [reflexivity|]. split; [rewrite !map_length; auto|].
  intros t row Ht. unfold at_ in Ht. rewrite !nth_error_map in Ht. destruct (nth_error (st0 :: sts) t) as [st|] eqn:Est; [|discriminate].
  simpl in Ht. injection Ht as <-. exists st. split; auto. split; [rewrite map_length; apply tab_length|].
  assert (L0 : length st0 = p) by (apply (F 0); reflexivity). assert (L : length st = p) by (apply (F t); auto).
  assert (G : forall s q, at_ (map (fun x => nan_div x (qsum (tab k (fun s0 => number_in s0 st0)))) (tab k (fun s0 => number_in s0 st))) s q ->
    share (number_in s st) (inject_Z (Z.of_nat p)) q).
  { intros s q Hq. unfold at_ in Hq. rewrite nth_error_map in Hq. destruct (nth_error (tab k _) s) as [x|] eqn:Ex; [|discriminate].
    injection Hq as <-. apply tab_at in Ex. destruct Ex as [_ ->]. apply nan_div_share. rewrite qsum_total, total_numbers, L0; [reflexivity|].
    intros; eapply Hk; eauto. left; auto. }
  split; [|exact G]. eapply (share_law k); [rewrite map_length; apply tab_length|exact G|intro; apply qn_nonneg|].
  rewrite <- L. apply total_numbers. intros; eapply Hk; eauto. eapply nth_error_In; eauto.
Qed.

(** Every row has the greatest state: a smaller number of states changes nothing. *)
Lemma stack_smaller : forall states k m, (forall st, In st states -> In m st /\ forall x, In x st -> x <= m) -> k <= m ->
  stack_states states (Some k) = stack_states states None \/ states = [].
Proof.
  intros states k m H Hk. destruct states as [|st0 sts]; [right; auto|left].
  assert (Sm : size None (concat (st0 :: sts)) (S m)).
  { split; [|split; [lia|]].
    - simpl. rewrite Nat.sub_0_r. apply in_app_iff. left. apply H. left; auto.
    - intros x Hx. apply in_concat in Hx. destruct Hx as (st & H1 & H2). apply H in H1. destruct H1 as [_ H1]. specialize (H1 x H2). lia. }
  unfold stack_states. rewrite (stack_size None _ _ Sm). cbn [bind].
  replace (map (fun row => map (fun c => inject_Z (Z.of_nat c)) (bincount row k)) (st0 :: sts))
    with (map (fun row => map (fun c => inject_Z (Z.of_nat c)) (bincount row (S m))) (st0 :: sts)); [reflexivity|].
  apply map_ext_in. intros st Hst. f_equal. unfold bincount. f_equal. f_equal. destruct (H st Hst) as [H1 H2]. destruct st as [|x st]; [destruct H1|].
  assert (E : list_max_nat (x :: st) = m).
  { apply Nat.le_antisymm; [apply H2; apply list_max_in; discriminate|apply list_max_ge; auto]. }
  rewrite E. lia.
Qed.
