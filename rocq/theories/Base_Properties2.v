(** * C195: reading loggers and the value of one household. *)

From Coq Require Import String List ZArith QArith Bool Lia Lqa Arith.
From Verif Require Import Prelude PreludeFacts SpecBase SpecBaseFacts Matrix_Proofs Base_Model Base_Spec Base_Proofs.
Import ListNotations.

(** ** Vocabulary *)

(** [l'] is [l] without its last element, if any. *)
Definition all_but_last {A} (l l' : list A) : Prop := (l = [] /\ l' = []) \/ exists w, l = l' ++ [w].

(** What [get] returns of a record: the last observation is left out. *)
Definition reported (c c' : cell) : Prop :=
  match c, c' with
  | CList l, CList l' => all_but_last l l'
  | CDict d, CDict d' => map fst d' = map fst d /\
      forall i k l k' l', at_ d i (k, l) -> at_ d' i (k', l') -> all_but_last l l'
  | _, _ => False
  end.

(** ** Proofs *)

Lemma removelast_spec : forall A (l : list A), all_but_last l (removelast l).
Proof.
  intros A l. destruct l as [|a l]; [left; auto|right]. exists (last (a :: l) a). apply app_removelast_last. discriminate.
Qed.

Lemma drop_reported : forall c, reported c (drop_last c).
Proof.
  intros [l|d]; cbn; [apply removelast_spec|]. split; [rewrite map_map; reflexivity|].
  intros i k l k' l' H1 H2. apply at_map in H2. destruct H2 as ([k0 l0] & H2 & E). pose proof (at_fun _ _ _ _ _ H1 H2) as [= <- <-].
  cbn in E. injection E as -> ->. apply removelast_spec.
Qed.

Lemma all_but_last_fun : forall A (l a b : list A), all_but_last l a -> all_but_last l b -> a = b.
Proof.
  intros A l a b [[-> ->]|[w ->]] [[E ->]|[w' E]]; auto.
  - destruct b; discriminate.
  - destruct a; discriminate.
  - apply app_inj_tail in E. tauto.
Qed.

Lemma list_ext_at : forall A (l m : list A), length l = length m -> (forall i x y, at_ l i x -> at_ m i y -> x = y) -> l = m.
Proof.
  intros A l. induction l as [|a l IH]; intros [|b m] L H; try discriminate; [reflexivity|].
  f_equal; [apply (H 0%nat); reflexivity|]. apply IH; [cbn in L; lia|]. intros i x y Hx Hy. apply (H (S i)); assumption.
Qed.

Lemma reported_fun : forall c a b, reported c a -> reported c b -> a = b.
Proof.
  intros [l|d] [x|x] [y|y] H1 H2; cbn in *; try contradiction.
  - f_equal. eapply all_but_last_fun; eauto.
  - f_equal. destruct H1 as [M1 V1], H2 as [M2 V2].
    assert (L1 : length x = length d) by (rewrite <- (map_length fst x), M1, map_length; reflexivity).
    assert (L2 : length y = length d) by (rewrite <- (map_length fst y), M2, map_length; reflexivity).
    apply list_ext_at; [lia|]. intros i [kx lx] [ky ly] Hx Hy.
    destruct (lt_at _ d i) as [[k l] Hd]; [rewrite <- L1; eapply at_lt; eauto|].
    assert (kx = k). { assert (P : at_ (map fst x) i kx) by (apply at_map; eexists; split; [exact Hx|reflexivity]). rewrite M1 in P.
      apply at_map in P. destruct P as ([k0 l0] & P & E). pose proof (at_fun _ _ _ _ _ Hd P) as [= <- <-]. exact E. }
    assert (ky = k). { assert (P : at_ (map fst y) i ky) by (apply at_map; eexists; split; [exact Hy|reflexivity]). rewrite M2 in P.
      apply at_map in P. destruct P as ([k0 l0] & P & E). pose proof (at_fun _ _ _ _ _ Hd P) as [= <- <-]. exact E. }
    subst. f_equal. eapply all_but_last_fun; eauto.
Qed.

Lemma in_attrs_iff : forall x a, in_attrs x a = true <-> In a (attrs x).
Proof.
  intros x a. unfold in_attrs. rewrite existsb_exists. split.
  - intros (b & Hb & E). apply String.eqb_eq in E. congruence.
  - intro H. exists a. split; [exact H|apply String.eqb_refl].
Qed.

(** ** C195 *)

(** A logger reports what it recorded of one of its attributes but the last
    observation; anything else is refused. *)
Theorem C195_get : forall x a,
  (forall c, logger_get x (Some a) = Ok c <->
     In a (attrs x) /\ exists full, dget String.eqb (store x) a = Some full /\ reported full c) /\
  (~ In a (attrs x) <-> logger_get x (Some a) = Err ValueError) /\
  (In a (attrs x) -> dget String.eqb (store x) a = None -> logger_get x (Some a) = Err KeyError).
Proof.
  intros x a. unfold logger_get. cbn [bind]. pose proof (in_attrs_iff x a) as I.
  destruct (in_attrs x a); [assert (Ia : In a (attrs x)) by (apply I; reflexivity)|assert (Ia : ~ In a (attrs x)) by (intro Y; apply I in Y; discriminate)].
  - destruct (dget String.eqb (store x) a) as [full|] eqn:E; (split; [|split]).
    + intro c. split; [intros [= <-]; split; [exact Ia|]; exists full; split; [reflexivity|apply drop_reported]|].
      intros (_ & f & [= <-] & R). f_equal. eapply reported_fun; [apply drop_reported|exact R].
    + split; [contradiction|discriminate].
    + intros _ X. discriminate.
    + intro c. split; [discriminate|]. intros (_ & f & X & _). discriminate.
    + split; [contradiction|discriminate].
    + reflexivity.
  - split; [|split].
    + intro c. split; [discriminate|]. intros [Y _]. contradiction.
    + split; auto.
    + contradiction.
Qed.

(** Without a name: the only attribute of the logger, refused when it has none or
    several. *)
Theorem C195_get_default : forall x,
  (forall a, attrs x = [a] -> logger_get x None = logger_get x (Some a)) /\
  (length (attrs x) <> 1%nat -> logger_get x None = Err ValueError).
Proof.
  intro x. unfold logger_get. destruct (attrs x) as [|a [|b l]]; (split; [intros c E|intro N]); try discriminate; try reflexivity.
  - injection E as <-. reflexivity.
  - cbn in N. contradiction.
Qed.

(** The value of one household: an element of the array, with python's errors
    for a household outside the array, a number and a dictionary. *)
Theorem C195_one_household : forall S A (pre post : A -> nat -> S -> result S) raw is_cached x name i v,
  coherent raw x -> raw (st x) (ctr x) name = Ok v ->
  match v with
  | VS (SArr l) =>
      (forall q, at_ l i q -> exists y, exec pre post raw is_cached [OGet _ name (Some i)] x = Ok ([VS (SNum q)], y)) /\
      ((length l <= i)%nat -> exec pre post raw is_cached [OGet _ name (Some i)] x = Err IndexError)
  | VS _ => exec pre post raw is_cached [OGet _ name (Some i)] x = Err TypeError
  | VD _ => exec pre post raw is_cached [OGet _ name (Some i)] x = Err KeyError
  end.
Proof.
  intros S A pre post raw is_cached x name i v C R.
  assert (E : exists y, call raw is_cached x name = Ok (v, y)).
  { unfold call. destruct (is_cached name); [|rewrite R; cbn [bind]; eauto].
    destruct (dget String.eqb (cache x) name) as [w|] eqn:Ew; [|rewrite R; cbn [bind]; eauto].
    apply C in Ew. rewrite R in Ew. injection Ew as <-. eauto. }
  destruct E as [y E]. cbn [exec]. rewrite E. cbn [bind fst snd].
  destruct v as [[l|q|t]|d]; cbn [pick bind]; try reflexivity. split.
  - intros q Hq. unfold at_ in Hq. rewrite Hq. cbn [bind fst snd]. eauto.
  - intro L. apply nth_error_None in L. rewrite L. reflexivity.
Qed.

(** A dictionary with a key that was not there the first time cannot be recorded. *)
Theorem C195_new_key : forall S raw is_cached (x : sim S) l a cur e k w,
  coherent raw x -> lg x = Some l -> attrs l = [a] -> aggregated l = [false] ->
  dget String.eqb (store l) a = Some (CDict cur) -> raw (st x) (ctr x) a = Ok (VD e) ->
  In (k, w) e -> dget String.eqb cur k = None -> visit raw is_cached x = Err KeyError.
Proof.
  intros S raw is_cached x l a cur e k w C L A1 A2 St R I N.
  assert (E : exists y, call raw is_cached x a = Ok (VD e, y)).
  { unfold call. destruct (is_cached a); [|rewrite R; cbn [bind]; eauto].
    destruct (dget String.eqb (cache x) a) as [v|] eqn:Ew; [|rewrite R; cbn [bind]; eauto].
    apply C in Ew. rewrite R in Ew. injection Ew as <-. eauto. }
  destruct E as [y E]. unfold visit. rewrite L, A1, A2. cbn [combine visit_attrs]. rewrite E. cbn [bind fst snd].
  unfold record_value. rewrite St. cbn [cell_append].
  assert (K : append_all cur e = Err KeyError); [|rewrite K; reflexivity].
  clear - I N. revert cur N. induction e as [|[k1 w1] e IH]; intros cur N; [destruct I|]. cbn [append_all].
  destruct (dget String.eqb cur k1) as [l|] eqn:E; [|reflexivity].
  assert (k1 <> k) by (intros ->; congruence).
  destruct I as [I|I]; [congruence|]. apply IH; [exact I|].
  rewrite (dget_dset_other _ _ String.eqb seqb_eq); auto.
Qed.

(** Nor can an attribute for which the logger has no record at all. *)
Theorem C195_no_record : forall S raw is_cached (x : sim S) l a g v,
  coherent raw x -> lg x = Some l -> attrs l = [a] -> aggregated l = [g] ->
  dget String.eqb (store l) a = None -> raw (st x) (ctr x) a = Ok v -> visit raw is_cached x = Err KeyError.
Proof.
  intros S raw is_cached x l a g v C L A1 A2 St R.
  assert (E : exists y, call raw is_cached x a = Ok (v, y)).
  { unfold call. destruct (is_cached a); [|rewrite R; cbn [bind]; eauto].
    destruct (dget String.eqb (cache x) a) as [w|] eqn:Ew; [|rewrite R; cbn [bind]; eauto].
    apply C in Ew. rewrite R in Ew. injection Ew as <-. eauto. }
  destruct E as [y E]. unfold visit. rewrite L, A1, A2. cbn [combine visit_attrs]. rewrite E. cbn [bind fst snd].
  unfold record_value. rewrite St. reflexivity.
Qed.

(** A step of the example simulator: every household gains the arrivals and
    loses the departures; arrays of another size (but one) are refused. *)
Theorem C195_example_step : forall is_cached x arriving leaving, lg x = None ->
  (length arriving = length (st x) -> length leaving = length (st x) ->
   exists y, step example_pre no_post example_raw is_cached (arriving, leaving) x = Ok y /\ ctr y = S (ctr x) /\
     length (st y) = length (st x) /\
     forall h o a l, at_ (st x) h o -> at_ arriving h a -> at_ leaving h l -> exists o', at_ (st y) h o' /\ o' == o + a - l) /\
  (length arriving <> 1%nat -> length leaving <> 1%nat -> length arriving <> length (st x) \/ length leaving <> length (st x) ->
   step example_pre no_post example_raw is_cached (arriving, leaving) x = Err ValueError).
Proof.
  intros is_cached x arriving leaving L. unfold step, example_pre. cbn [fst snd]. split.
  - intros E1 E2. rewrite E1, E2, Nat.eqb_refl. cbn [andb bind visit lg]. unfold visit. cbn [lg]. rewrite L. cbn [bind st ctr cache no_post].
    eexists. split; [reflexivity|]. cbn [st ctr]. split; [reflexivity|]. split; [rewrite !map2_length; lia|].
    intros h o a l Ho Ha Hl. exists (o + a - l)%Q. split; [|reflexivity].
    apply at_map2. exists (o + a)%Q, l. split; [apply at_map2; exists o, a; auto|auto].
  - intros _ _ N. replace (Nat.eqb (length arriving) (length (st x)) && Nat.eqb (length leaving) (length (st x))) with false; [reflexivity|].
    symmetry. apply andb_false_iff. rewrite !Nat.eqb_neq. exact N.
Qed.

Example C195_example :
  (let l := mkLogger ["temperature"] [false] [("temperature", CList [SNum 18; SNum 19; SNum 20])] 3 in
  let d := mkLogger ["gains"] [false] [("gains", CDict [("sun", [SNum 1])])] 1 in
  let raw (s : nat) (c : nat) (n : string) := Ok (if String.eqb n "gains" then VD [("sun", SNum 1); ("body", SNum 2)] else VS (SArr [5; 6]%Q)) in
  logger_get l None = Ok (CList [SNum 18; SNum 19]) /\
  logger_get l (Some "power") = Err ValueError /\
  logger_get (mkLogger ["a"; "b"] [false; false] [] 0) None = Err ValueError /\
  visit raw (fun _ => true) (mkSim 0%nat 0 [] (Some d)) = Err KeyError /\
  exec (A := unit) (fun _ _ s => Ok s) (fun _ _ s => Ok s) raw (fun _ => true) [OGet _ "occupants" (Some 1%nat)] (mkSim 0%nat 0 [] None)
    = Ok ([VS (SNum 6)], mkSim 0%nat 0 [("occupants", VS (SArr [5; 6]%Q))] None) /\
  exec (A := unit) (fun _ _ s => Ok s) (fun _ _ s => Ok s) raw (fun _ => true) [OGet _ "occupants" (Some 2%nat)] (mkSim 0%nat 0 [] None)
    = Err IndexError)%string.
Proof. cbv zeta. conj_vm. Qed.

Print Assumptions C195_get.
Print Assumptions C195_get_default.
Print Assumptions C195_one_household.
Print Assumptions C195_new_key.
Print Assumptions C195_no_record.
Print Assumptions C195_example_step.
