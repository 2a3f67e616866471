(** * Properties C180-C184: transitions of the time use survey. *)

From Coq Require Import List ZArith QArith Bool Lia Arith.
From Verif Require Import Prelude PreludeFacts SpecBase SpecBaseFacts Parse_Model Parse_Spec
  Atus_Model Atus_Spec Atus_Proofs Atus_StateProofs Atus_MaskProofs Atus_TimedProofs Atus_LawProofs.
Import ListNotations.
Local Open Scope nat_scope.

(** ** C180: diaries *)

(** What is returned. *)
Theorem C180_states : forall times persons news initial n_times n_persons n_states rows,
  transitions_to_states times persons news initial n_times n_persons n_states = Ok rows ->
  exists n m k, size n_times times n /\ size n_persons persons m /\ size n_states news k /\
    (n_states = None \/ exists l, initial = Some l /\ l <> [] /\ forall x, In x l -> x < k) /\
    length persons = length times /\ length news = length times /\ length (start_states initial times news) = m /\
    starts_as times persons news (start_states initial times news) /\
    length rows = m /\ full n rows /\
    forall p t x, diary rows p t x <-> p < m /\ t < n /\ state_at times persons news (start_states initial times news) p t x.
Proof.
  intros times persons news initial nt np ns rows H. apply states_inv in H. destruct H as (n & m & k & H1 & H2 & H3 & H).
  exists n, m, k. apply states_size_ok in H3. tauto.
Qed.
Print Assumptions C180_states.

(** What is accepted. *)
Theorem C180_accepted : forall times persons news initial n_times n_persons n_states n m k,
  size n_times times n -> size n_persons persons m -> size n_states news k ->
  (n_states = None \/ exists l, initial = Some l /\ l <> [] /\ forall x, In x l -> x < k) ->
  length persons = length times -> length news = length times -> length (start_states initial times news) = m ->
  starts_as times persons news (start_states initial times news) ->
  exists rows, transitions_to_states times persons news initial n_times n_persons n_states = Ok rows.
Proof.
  intros times persons news initial nt np ns n m k H1 H2 H3 H4 H5 H6 H7 H8. eapply states_total with (n := n) (m := m) (k := k); eauto. apply states_size_ok; auto.
Qed.
Print Assumptions C180_accepted.

(** The transitions of a table of diaries, in any order, give the table back. *)
Theorem C180_round_trip : forall rows n times persons news initial n_persons n_states, 0 < n -> rows <> [] -> full n rows ->
  describes rows times persons news -> first_states rows initial ->
  (n_persons = None \/ n_persons = Some (length rows)) ->
  (n_states = None \/ exists k, n_states = Some k /\ forall p t x, diary rows p t x -> x < k) ->
  transitions_to_states times persons news (Some initial) (Some n) n_persons n_states = Ok rows.
Proof. exact round_trip. Qed.
Print Assumptions C180_round_trip.

(** An empty table of transitions is refused. *)
Theorem C180_no_lines : forall persons news initial n_times n_persons n_states,
  transitions_to_states [] persons news initial n_times n_persons n_states = Err ValueError.
Proof. reflexivity. Qed.
Print Assumptions C180_no_lines.

(** Without initial states, a number of states is refused. *)
Theorem C180_states_given_refuted : exists times persons news rows,
  transitions_to_states times persons news None None None None = Ok rows /\
  (forall x, In x news -> x < 2) /\
  transitions_to_states times persons news None None None (Some 2) = Err TypeError.
Proof. exists [0; 1], [0; 0], [1; 0], [[1; 0]]. repeat split. intros x [<-|[<-|[]]]; lia. Qed.
Print Assumptions C180_states_given_refuted.

(** Without a number of times, the times after the last transition are lost. *)
Theorem C180_times_deduced_refuted : exists rows n times persons news initial rows',
  full n rows /\ describes rows times persons news /\ first_states rows initial /\
  transitions_to_states times persons news (Some initial) None None None = Ok rows' /\ rows' <> rows.
Proof.
  exists [[1; 0; 0]], 3, [0; 1], [0; 0], [1; 0], [1], [[1; 0]]. split; [|split; [|split; [|split; [reflexivity|discriminate]]]].
  - intros p row H. apply at_in in H. destruct H as [<-|[]]. reflexivity.
  - split; [reflexivity|]. split; [reflexivity|]. intros t p x. unfold trans, begins, diary, at_. split.
    + intros (k & H1 & H2 & H3). destruct k as [|[|[|k]]]; simpl in *; try discriminate; injection H1 as <-; injection H2 as <-; injection H3 as <-.
      * split; [eexists; split; reflexivity|left; auto].
      * split; [eexists; split; reflexivity|right]. simpl. intros (r & Hr & Hx). injection Hr as <-. discriminate.
    + intros ((r & Hr & Hx) & H). destruct p as [|[|p]]; simpl in Hr; try discriminate. injection Hr as <-.
      destruct t as [|[|[|[|t]]]]; simpl in Hx; try discriminate; injection Hx as <-.
      * exists 0; auto.
      * exists 1; auto.
      * exfalso. destruct H as [H|H]; [discriminate|]. apply H. exists [1; 0; 0]. auto.
  - split; [reflexivity|]. intros [|[|p]] x H; try discriminate. injection H as <-. exists [1; 0; 0]. split; reflexivity.
Qed.
Print Assumptions C180_times_deduced_refuted.

Example C180_example :
  transitions_to_states [2; 0; 0; 3; 0; 1] [1; 1; 2; 0; 0; 0] [2; 1; 2; 0; 0; 1] (Some [0; 1; 2]) (Some 4) None (Some 3) =
    Ok [[0; 1; 1; 0]; [1; 1; 2; 2]; [2; 2; 2; 2]] /\
  transitions_to_states [0; 1] [0; 0] [1; 0] (Some [0]) None None None = Err AssertionError /\
  transitions_to_states [0; 1] [0; 0] [1; 0] None None (Some 2) None = Err AssertionError /\
  transitions_to_states [] [] [] None None None None = Err ValueError.
Proof. repeat split. Qed.

(** ** C181: transition matrices *)

Theorem C181_matrices : forall initial times persons news n_times n_persons n_states algo ms cols,
  build_transition_matrices initial times persons news n_times n_persons n_states algo = Ok (ms, cols) ->
  exists n m k, size n_times times n /\ size n_persons persons m /\ size n_states news k /\ length initial = m /\
    starts_as times persons news initial /\ algo <> AlgoUnknown /\ cols_states times persons news initial n m cols /\ length ms = n /\
    forall t mat, at_ ms t mat -> exists old new, at_ (initial :: cols) (taken (is_last algo) n t) old /\
      at_ cols (taken (is_last algo) n t) new /\ length mat = k /\
      forall a row, at_ mat a row -> length row = k /\ forall b q, at_ row b q -> share (pairs old new a b) (seen old a) q.
Proof. exact matrices_inv. Qed.
Print Assumptions C181_matrices.

(** Every row holds probabilities, or nans. *)
Theorem C181_rows : forall initial times persons news n_times n_persons n_states algo ms cols t mat a row,
  build_transition_matrices initial times persons news n_times n_persons n_states algo = Ok (ms, cols) ->
  at_ ms t mat -> at_ mat a row -> law row.
Proof. exact matrices_rows. Qed.
Print Assumptions C181_rows.

(** With the strategy 'nothing', the first matrix is the identity on the initial
    states. *)
Theorem C181_first : forall initial times persons news n_times n_persons n_states ms cols mat a row b q,
  build_transition_matrices initial times persons news n_times n_persons n_states AlgoNothing = Ok (ms, cols) ->
  at_ ms 0 mat -> at_ mat a row -> at_ row b q ->
  (In a initial -> exists v, q = Some v /\ v == if a =? b then 1 else 0)%Q /\ (~ In a initial -> q = None).
Proof. exact matrices_first. Qed.
Print Assumptions C181_first.

Theorem C181_accepted : forall initial times persons news n_times n_persons n_states algo n m k,
  size n_times times n -> size n_persons persons m -> size n_states news k -> length initial = m ->
  length persons = length times -> length news = length times ->
  starts_as times persons news initial -> (forall x, In x initial -> x < k) -> algo <> AlgoUnknown ->
  exists ms cols, build_transition_matrices initial times persons news n_times n_persons n_states algo = Ok (ms, cols).
Proof. exact matrices_total. Qed.
Print Assumptions C181_accepted.

Theorem C181_unknown : forall initial times persons news n_times n_persons n_states n m k,
  size n_times times n -> size n_persons persons m -> size n_states news k -> length initial = m ->
  length persons = length times -> length news = length times ->
  starts_as times persons news initial -> (forall x, In x initial -> x < k) ->
  build_transition_matrices initial times persons news n_times n_persons n_states AlgoUnknown = Err TypeError.
Proof. exact matrices_unknown. Qed.
Print Assumptions C181_unknown.

(** The number of states is deduced from the transitions alone: an initial state
    above all of them does not fit. *)
Theorem C181_initial_above : forall initial times persons news n_times n_persons algo n m k,
  size n_times times n -> size n_persons persons m -> size None news k -> length initial = m ->
  length persons = length times -> length news = length times ->
  starts_as times persons news initial -> (exists x, In x initial /\ k <= x) ->
  build_transition_matrices initial times persons news n_times n_persons None algo = Err IndexError.
Proof. exact matrices_index. Qed.
Print Assumptions C181_initial_above.

Example C181_example :
  build_transition_matrices [0; 1; 1] [0; 1] [1; 2] [1; 0] None None None AlgoNothing =
    Ok ([[[Some (1 # 1); Some (0 # 1)]; [Some (0 # 2); Some (2 # 2)]]; [[Some (1 # 1); Some (0 # 1)]; [Some (1 # 2); Some (1 # 2)]]]%Q,
        [[0; 1; 1]; [0; 1; 0]]) /\
  build_transition_matrices [0; 1; 1] [0; 1] [1; 2] [1; 0] None None None AlgoLast =
    Ok ([[[Some (1 # 1); Some (0 # 1)]; [Some (1 # 2); Some (1 # 2)]]; [[Some (1 # 1); Some (0 # 1)]; [Some (1 # 2); Some (1 # 2)]]]%Q,
        [[0; 1; 1]; [0; 1; 0]]) /\
  build_transition_matrices [2; 1] [0; 1] [1; 1] [1; 0] None None None AlgoLast = Err IndexError /\
  build_transition_matrices [2; 1] [0; 1] [1; 1] [1; 0] None None (Some 3) AlgoUnknown = Err TypeError.
Proof. repeat split. Qed.

(** ** C182: fake transitions *)

Theorem C182_mask : forall times persons news n_times n_persons n_states mask,
  mask_fake times persons news n_times n_persons n_states = Ok mask ->
  length mask = length times /\ forall k b, at_ mask k b -> (b = true <-> real persons news k).
Proof.
  intros times persons news nt np ns mask H. apply mask_ok in H. destruct H as (_ & _ & _ & L1 & L2 & Hs & ->). split.
  - rewrite real_from_length, combine_length. lia.
  - intros k b Hb. eapply mask_real; eauto.
Qed.
Print Assumptions C182_mask.

Theorem C182_accepted : forall times persons news n_times n_persons n_states n m k,
  size n_times times n -> size n_persons persons m -> size n_states news k ->
  length persons = length times -> length news = length times -> by_person times persons ->
  exists mask, mask_fake times persons news n_times n_persons n_states = Ok mask.
Proof. intros. eexists. eapply mask_total; eauto. Qed.
Print Assumptions C182_accepted.

Theorem C182_refused : forall times persons news n_times n_persons n_states n m k,
  size n_times times n -> size n_persons persons m -> size n_states news k ->
  length persons = length times -> length news = length times -> ~ by_person times persons ->
  mask_fake times persons news n_times n_persons n_states = Err AssertionError.
Proof. exact mask_refused. Qed.
Print Assumptions C182_refused.

(** The transitions kept describe the same diaries. *)
Theorem C182_same : forall times persons news n_times n_persons n_states mask initial n n_persons' n_states' rows,
  mask_fake times persons news n_times n_persons n_states = Ok mask ->
  transitions_to_states times persons news (Some initial) (Some n) n_persons' n_states' = Ok rows ->
  transitions_to_states (kept mask times) (kept mask persons) (kept mask news) (Some initial) (Some n) n_persons' n_states' = Ok rows.
Proof. intros times persons news nt np ns mask initial n np' ns' rows H1 H2. rewrite !kept_compress. eapply kept_same; eauto. Qed.
Print Assumptions C182_same.

Theorem C182_again : forall times persons news n_times n_persons n_states mask,
  mask_fake times persons news n_times n_persons n_states = Ok mask ->
  mask_fake (kept mask times) (kept mask persons) (kept mask news) n_times n_persons n_states =
    Ok (repeat true (length (kept mask times))).
Proof. intros times persons news nt np ns mask H. rewrite !kept_compress. eapply mask_again; eauto. Qed.
Print Assumptions C182_again.

Example C182_example :
  mask_fake [0; 1; 3; 0; 2; 0] [0; 0; 0; 1; 1; 2] [0; 0; 1; 1; 1; 1] None None None = Ok [true; false; true; true; false; true] /\
  kept [true; false; true; true; false; true] [0; 1; 3; 0; 2; 0] = [0; 3; 0; 0] /\
  mask_fake [0; 1] [1; 0] [0; 0] None None None = Err AssertionError /\
  mask_fake [1; 0] [0; 0] [0; 0] None None None = Err AssertionError.
Proof. repeat split. Qed.

(** ** C183: time dependent matrices *)

Theorem C183_timed : forall rows n times persons news initial n_times n_persons n_states k algo, 0 < n -> full n rows -> rows <> [] ->
  describes rows times persons news -> by_person_strictly times persons -> first_states rows initial ->
  size n_times times n -> (n_persons = None \/ n_persons = Some (length rows)) -> size n_states news k ->
  (forall p t x, diary rows p t x -> x < k) -> algo <> AlgoUnknown ->
  exists moves stays, build_timed initial times persons news n_times n_persons n_states algo = Ok (moves, stays) /\
    length moves = n /\ length stays = n /\
    (forall t mat, at_ moves t mat -> length mat = k /\ forall a row, at_ mat a row -> length row = k /\ law row /\
       forall b q, at_ row b q -> let t' := taken (is_last algo) n t in
         share (persons_with (fun r => leaves n t' a r && is_at t' b r)%bool rows) (persons_with (leaves n t' a) rows) q) /\
    (forall t mat, at_ stays t mat -> length mat = k /\ forall s row, at_ mat s row -> length row = S n /\ law row /\
       forall d q, at_ row d q -> let t' := taken (is_last algo) n t in
         share (persons_with (fun r => stay_begins t' s r && stay_known n t' s r && (stay_length n t' s r =? d))%bool rows)
           (persons_with (fun r => stay_begins t' s r && stay_known n t' s r)%bool rows) q).
Proof. exact timed_out. Qed.
Print Assumptions C183_timed.

Theorem C183_unknown : forall rows n times persons news initial n_times n_persons n_states k, 0 < n -> full n rows -> rows <> [] ->
  describes rows times persons news -> by_person_strictly times persons -> first_states rows initial ->
  size n_times times n -> (n_persons = None \/ n_persons = Some (length rows)) -> size n_states news k ->
  (forall p t x, diary rows p t x -> x < k) ->
  build_timed initial times persons news n_times n_persons n_states AlgoUnknown = Err TypeError.
Proof. exact timed_unknown. Qed.
Print Assumptions C183_unknown.

(** Two transitions of a person at the same time, or lines out of order. *)
Theorem C183_refused : forall initial times persons news n_times n_persons n_states algo n m k,
  size n_times times n -> size n_persons persons m -> size n_states news k -> length initial = m ->
  length persons = length times -> length news = length times ->
  starts_as times persons news initial -> (forall x, In x initial -> x < k) -> ~ by_person_strictly times persons ->
  build_timed initial times persons news n_times n_persons n_states algo = Err AssertionError.
Proof. exact timed_unsorted. Qed.
Print Assumptions C183_refused.

(** Two persons: states 0 1 1 and 1 1 1.  At time 1 the first person leaves 0 for 1;
    their stay in 1 is cut by the end of the day, hence left out; the whole day of the
    second person is counted at time 0. *)
Example C183_example :
  build_timed [0; 1] [0; 1; 0] [0; 0; 1] [0; 1; 1] (Some 3) None None AlgoNothing =
    Ok ([[[None; None]; [Some (1 # 2); Some (1 # 2)]]; [[Some (0 # 1); Some (1 # 1)]; [None; None]]; [[None; None]; [None; None]]]%Q,
        [[[Some (0 # 1); Some (1 # 1); Some (0 # 1); Some (0 # 1)]; [Some (0 # 1); Some (0 # 1); Some (0 # 1); Some (1 # 1)]];
         [[None; None; None; None]; [None; None; None; None]]; [[None; None; None; None]; [None; None; None; None]]]%Q) /\
  build_timed [0; 1] [0; 0; 0] [0; 0; 1] [0; 0; 1] (Some 3) None None AlgoNothing = Err AssertionError.
Proof. repeat split. Qed.

(** ** C184: stacked states *)

Theorem C184_stacked : forall states n_states k p, states <> [] -> full p states -> size n_states (concat states) k ->
  exists out, stack_states states n_states = Ok out /\ length out = length states /\
    forall t row, at_ out t row -> exists st, at_ states t st /\ length row = k /\ law row /\
      forall s q, at_ row s q -> share (number_in s st) (inject_Z (Z.of_nat p)) q.
Proof. exact stack_out. Qed.
Print Assumptions C184_stacked.

(** A smaller number of states is not applied, if the greatest state is seen at every
    time. *)
Theorem C184_smaller_partial : forall states k m, states <> [] ->
  (forall st, In st states -> In m st /\ forall x, In x st -> x <= m) -> k <= m ->
  stack_states states (Some k) = stack_states states None.
Proof. intros states k m Hne H Hk. destruct (stack_smaller states k m H Hk) as [E|E]; [exact E|congruence]. Qed.
Print Assumptions C184_smaller_partial.

(** Otherwise it can be refused, or give proportions whose sum is not one: the count of
    a time with one state is spread over all of them. *)
Theorem C184_smaller_refuted : exists states k out row pdf, full 2 states /\
  stack_states states (Some k) = Ok out /\ at_ out 1 row /\ row = map Some pdf /\ (total pdf == 2)%Q.
Proof.
  exists [[0; 1]; [0; 0]], 1, [[Some (1 # 2); Some (1 # 2)]; [Some (2 # 2); Some (2 # 2)]]%Q, [Some (2 # 2); Some (2 # 2)]%Q, [2 # 2; 2 # 2]%Q.
  split; [|split; [reflexivity|split; [reflexivity|split; reflexivity]]].
  intros p row H. apply at_in in H. destruct H as [<-|[<-|[]]]; reflexivity.
Qed.
Print Assumptions C184_smaller_refuted.

(** Nothing to stack: refused. *)
Theorem C184_nothing : forall states n_states, states = [] \/ (n_states = None /\ concat states = []) ->
  stack_states states n_states = Err ValueError.
Proof.
  intros states n_states [->|[-> E]]; unfold stack_states; [|rewrite E; reflexivity].
  destruct n_states; reflexivity.
Qed.
Print Assumptions C184_nothing.

(** The number of counts of a time: the number of states given, or more if a greater
    state is seen. *)
Definition counted_states (k : nat) (st : list nat) (w : nat) : Prop :=
  k <= w /\ (forall x, In x st -> x < w) /\ (w = k \/ exists x, In x st /\ S x = w).

Lemma counted_length : forall k st w, counted_states k st w -> length (bincount st k) = w.
Proof.
  intros k st w (H1 & H2 & H3). unfold bincount. rewrite map_length, seq_length. destruct st as [|x st].
  - destruct H3 as [->|(y & [] & _)]. lia.
  - assert (NE : x :: st <> []) by discriminate. pose proof (H2 _ (list_max_in NE)).
    destruct H3 as [->|(y & Hy & <-)]; [lia|]. pose proof (list_max_ge _ _ Hy). lia.
Qed.

(** A time with another number of counts than the first one is refused, unless it is
    one. *)
Theorem C184_ragged : forall k st0 rest st w0 w, counted_states k st0 w0 -> In st rest -> counted_states k st w ->
  w <> w0 -> w <> 1 -> stack_states (st0 :: rest) (Some k) = Err ValueError.
Proof.
  intros k st0 rest st w0 w C0 I C N N1. unfold stack_states. cbn [bind map]. rewrite map_length, (counted_length _ _ _ C0).
  assert (F : forall row : list Q, length row <> w0 -> length row <> 1 -> store_row w0 row = Err ValueError).
  { intros row L1 L2. unfold store_row. apply Nat.eqb_neq in L1. rewrite L1. destruct row as [|a [|b row]]; [reflexivity|cbn in L2; lia|reflexivity]. }
  match goal with |- bind (mapM ?f ?l) _ = _ => assert (E : mapM f l = Err ValueError); [|rewrite E; reflexivity] end.
  cbn [mapM]. unfold store_row at 1. rewrite map_length, (counted_length _ _ _ C0), Nat.eqb_refl. cbn [bind].
  assert (E : mapM (store_row w0) (map (fun row => map (fun c => inject_Z (Z.of_nat c)) (bincount row k)) rest) = Err ValueError); [|rewrite E; reflexivity].
  assert (Only : forall row e, @store_row Q w0 row = Err e -> e = ValueError).
  { intros row e. unfold store_row. destruct (length row =? w0); [discriminate|]. destruct row as [|a [|b row]]; congruence. }
  clear C0. induction rest as [|r rest IH]; [destruct I|]. cbn [map mapM].
  destruct I as [->|I].
  - rewrite F; [reflexivity| |]; rewrite map_length, (counted_length _ _ _ C); assumption.
  - destruct (store_row w0 _) as [y|e] eqn:E; cbn [bind]; [rewrite (IH I); reflexivity|]. apply Only in E. congruence.
Qed.
Print Assumptions C184_ragged.

Example C184_example :
  stack_states [[0; 1; 1; 0]; [2; 1; 1; 1]] None =
    Ok [[Some (2 # 4); Some (2 # 4); Some (0 # 4)]; [Some (0 # 4); Some (3 # 4); Some (1 # 4)]]%Q /\
  stack_states [[0; 1; 2]; [1; 1; 0]] (Some 1) = Err ValueError /\
  stack_states [] None = Err ValueError.
Proof. repeat split. Qed.
