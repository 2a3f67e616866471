(** * Proofs about simulators, loggers and cached getters. *)

From Coq Require Import String List ZArith QArith Bool Lia Lqa Arith.
From Verif Require Import Prelude PreludeFacts SpecBase SpecBaseFacts Base_Model Base_Spec.
Import ListNotations.

Lemma bind_ok : forall A B (x : result A) (f : A -> result B) y,
  bind x f = Ok y -> exists a, x = Ok a /\ f a = Ok y.
Proof. intros A B [a|e] f y H; simpl in H; [eauto|discriminate]. Qed.

Ltac inv_bind H :=
  match type of H with
  | bind ?x ?f = Ok ?y =>
      let a := fresh "r" in let Ha := fresh "Hr" in
      apply (bind_ok _ _ x f y) in H; destruct H as [a [Ha H]]; cbv beta in H
  end.

Notation seqb_eq := String.eqb_eq.

Arguments Base_Model.visit : simpl never.
Arguments Base_Model.step : simpl never.
Arguments logger_clear : simpl never.

Section SimProofs.
  Variables (S A : Type).
  Variable pre : A -> nat -> S -> result S.
  Variable post : A -> nat -> S -> result S.
  Variable raw : S -> nat -> string -> result value.
  Variable is_cached : string -> bool.

  Notation sim := (sim S).
  Notation call := (call raw is_cached).
  Notation visit := (visit raw is_cached).
  Notation visit_attrs := (visit_attrs raw is_cached).
  Notation step := (step pre post raw is_cached).
  Notation run := (run pre post raw is_cached).
  Notation initialize := (initialize pre post raw is_cached).
  Notation exec := (exec pre post raw is_cached).
  Notation coherent := (coherent raw).
  Notation reaches := (reaches S A (body pre post)).

  (** *** State and counter do not depend on logger and cache *)

  Lemma call_frame : forall x n v y, call x n = Ok (v, y) ->
    st y = st x /\ ctr y = ctr x /\ lg y = lg x.
  Proof.
    intros x n v y H. unfold Base_Model.call in H. destruct (is_cached n).
    - destruct (dget String.eqb (cache x) n); [injection H as _ <-; auto|].
      inv_bind H. injection H as _ <-; auto.
    - inv_bind H. injection H as _ <-; auto.
  Qed.

  Lemma call_coherent : forall x n v y, coherent x -> call x n = Ok (v, y) ->
    raw (st x) (ctr x) n = Ok v /\ coherent y.
  Proof.
    intros x n v y Hc H. unfold Base_Model.call in H. destruct (is_cached n).
    - destruct (dget String.eqb (cache x) n) as [w|] eqn:E.
      + injection H as <- <-. split; auto.
      + inv_bind H. injection H as <- <-. split; auto. intros m w Hm; simpl in *.
        destruct (String.eqb_spec m n) as [->|Hne].
        * rewrite (dget_dset_same _ _ String.eqb seqb_eq) in Hm. congruence.
        * rewrite (dget_dset_other _ _ String.eqb seqb_eq) in Hm by auto. auto.
    - inv_bind H. injection H as <- <-. auto.
  Qed.

  Lemma visit_attrs_frame : forall l x d y d', visit_attrs l x d = Ok (y, d') ->
    st y = st x /\ ctr y = ctr x /\ lg y = lg x.
  Proof.
    induction l as [|[a g] l IH]; intros x d y d' H; simpl in H.
    - injection H as <- <-; auto.
    - inv_bind H. inv_bind H. destruct r as [v z]; simpl in *.
      apply call_frame in Hr as (H1 & H2 & H3). apply IH in H as (H4 & H5 & H6).
      repeat split; congruence.
  Qed.

  Lemma visit_frame : forall x y, visit x = Ok y -> st y = st x /\ ctr y = ctr x.
  Proof.
    intros x y H. unfold Base_Model.visit in H. destruct (lg x) as [l|].
    - inv_bind H. destruct r as [z d]; simpl in H. injection H as <-; simpl.
      apply visit_attrs_frame in Hr. tauto.
    - injection H as <-; auto.
  Qed.

  Lemma step_frame : forall a x y, step a x = Ok y ->
    ctr y = Datatypes.S (ctr x) /\ body pre post a (ctr x) (st x) (st y).
  Proof.
    intros a x y H. unfold Base_Model.step in H. inv_bind H. inv_bind H. inv_bind H.
    injection H as <-; simpl. apply visit_frame in Hr0 as [H1 H2]. simpl in *. split; auto.
    exists r. rewrite H1, H2 in Hr1. auto.
  Qed.

  Lemma run_frame : forall args x y, run args x = Ok y ->
    ctr y = (ctr x + length args)%nat /\ reaches args (ctr x) (st x) (ctr y) (st y).
  Proof.
    induction args as [|a t IH]; intros x y H; simpl in H.
    - injection H as <-. split; [simpl; lia|constructor].
    - inv_bind H. apply step_frame in Hr as [H1 H2]. apply IH in H as [H3 H4].
      split; [simpl; lia|]. econstructor; [exact H2|]. rewrite <- H1. exact H4.
  Qed.

  Lemma initialize_frame : forall z a x y, initialize (StartInt z) a x = Ok y ->
    (0 <= z)%Z /\ ctr y = Z.to_nat z /\ reaches (repeat a (Z.to_nat z)) 0 (st x) (ctr y) (st y).
  Proof.
    intros z a x y H. unfold Base_Model.initialize in H. destruct (Z.ltb_spec z 0); [discriminate|].
    split; [auto|]. inv_bind H. apply run_frame in Hr as [H1 H2]. rewrite repeat_length in H1. simpl in H1, H2.
    destruct (lg r) as [l|].
    - inv_bind H. apply visit_frame in H as [H3 H4]. simpl in *. rewrite H3, H4. auto.
    - injection H as <-. auto.
  Qed.

  Lemma initialize_errors : forall a x,
    initialize StartOther a x = Err TypeError /\
    (forall z, (z < 0)%Z -> initialize (StartInt z) a x = Err ValueError).
  Proof.
    intros a x; split; [reflexivity|]. intros z Hz. unfold Base_Model.initialize.
    apply Z.ltb_lt in Hz; rewrite Hz; reflexivity.
  Qed.

  Theorem step_counting : forall z a x y args x', initialize (StartInt z) a x = Ok y -> run args y = Ok x' ->
    (0 <= z)%Z /\ Z.of_nat (ctr y) = z /\ Z.of_nat (ctr x') = (z + Z.of_nat (length args))%Z /\
    reaches (repeat a (Z.to_nat z)) 0 (st x) (Z.to_nat z) (st y) /\
    reaches args (Z.to_nat z) (st y) (ctr x') (st x').
  Proof.
    intros z a x y args x' Hi Hr. apply initialize_frame in Hi as (H0 & H1 & H2).
    apply run_frame in Hr as [H3 H4]. rewrite H1 in *. repeat split; auto; lia.
  Qed.

  (** *** Records *)

  (** What a visit records when the getters are evaluated directly. *)
  Definition seen (g : bool) (v : value) : value := if g then aggregate v else v.

  Lemma record_value_inv : forall d a v d', record_value d a v = Ok d' ->
    (exists c c', dget String.eqb d a = Some c /\ cell_append c v = Ok c' /\ dget String.eqb d' a = Some c') /\
    (forall b, b <> a -> dget String.eqb d' b = dget String.eqb d b).
  Proof.
    intros d a v d' H. unfold record_value in H.
    destruct (dget String.eqb d a) as [c|] eqn:E; [|discriminate]. inv_bind H. injection H as <-.
    split.
    - exists c, r. repeat split; auto. apply (dget_dset_same _ _ String.eqb seqb_eq).
    - intros b Hb. apply (dget_dset_other _ _ String.eqb seqb_eq); auto.
  Qed.

  Lemma visit_attrs_coherent : forall l x d y d', coherent x -> NoDup (map fst l) ->
    visit_attrs l x d = Ok (y, d') ->
    coherent y /\
    (forall a g, In (a, g) l -> exists v c c', raw (st x) (ctr x) a = Ok v /\
        dget String.eqb d a = Some c /\ cell_append c (seen g v) = Ok c' /\ dget String.eqb d' a = Some c') /\
    (forall a, ~ In a (map fst l) -> dget String.eqb d' a = dget String.eqb d a).
  Proof.
    induction l as [|[a g] l IH]; intros x d y d' Hc Hnd H; simpl in H.
    - injection H as <- <-. repeat split; auto. intros a g [].
    - inv_bind H. inv_bind H. destruct r as [v z]; simpl in *.
      inversion Hnd as [|? ? Hni Hnd']; subst.
      pose proof (call_frame _ _ _ _ Hr) as (H1 & H2 & H3).
      destruct (call_coherent _ _ _ _ Hc Hr) as [Hraw Hcz].
      destruct (record_value_inv _ _ _ _ Hr0) as ((c & c' & Hd & Ha & Hd') & Hoth).
      destruct (IH _ _ _ _ Hcz Hnd' H) as (Hcy & Hin & Hout).
      split; [exact Hcy|]. split.
      + intros b h [Heq|Hb].
        * injection Heq as <- <-. exists v, c, c'. repeat split; auto.
          rewrite Hout by auto. exact Hd'.
        * destruct (Hin b h Hb) as (w & e & e' & E1 & E2 & E3 & E4).
          exists w, e, e'. rewrite <- H1, <- H2. repeat split; auto.
          rewrite <- E2. symmetry. apply Hoth. intros ->. apply Hni.
          change a with (fst (a, h)). apply in_map; auto.
      + intros b Hb. rewrite Hout by tauto. apply Hoth. intros ->. tauto.
  Qed.

  Lemma combine_fst : forall A B (l : list A) (m : list B), length m = length l ->
    map fst (combine l m) = l.
  Proof.
    induction l as [|x l IH]; intros [|y m] H; simpl in *; try discriminate; auto.
    f_equal. apply IH. lia.
  Qed.

  Lemma combine_at : forall A B (l : list A) (m : list B) i a b, at_ l i a -> at_ m i b -> In (a, b) (combine l m).
  Proof.
    induction l as [|x l IH]; intros m i a b Ha Hb; unfold at_ in *; [destruct i; discriminate|].
    destruct m as [|y m]; [destruct i; discriminate|].
    destruct i as [|i]; simpl in *; [left; congruence|]. right; eapply IH; eauto.
  Qed.

  (** A visit of a coherent simulator. *)
  Lemma visit_spec : forall x y l, lg x = Some l -> well_formed l -> coherent x -> visit x = Ok y ->
    st y = st x /\ ctr y = ctr x /\ coherent y /\
    exists l', lg y = Some l' /\ well_formed l' /\ attrs l' = attrs l /\ aggregated l' = aggregated l /\
    log_len l' = Datatypes.S (log_len l) /\
    forall a g, logs l a g -> exists v c c', raw (st x) (ctr x) a = Ok v /\
      dget String.eqb (store l) a = Some c /\ cell_append c (seen g v) = Ok c' /\
      dget String.eqb (store l') a = Some c'.
  Proof.
    intros x y l Hl (Hnd & Hlen & Hex) Hc H. pose proof (visit_frame _ _ H) as [Hst Hctr].
    unfold Base_Model.visit in H. rewrite Hl in H. inv_bind H. destruct r as [z d']; simpl in H.
    injection H as <-. simpl in *.
    pose proof (combine_fst _ _ (attrs l) (aggregated l) Hlen) as Hfst.
    assert (Hnd' : NoDup (map fst (combine (attrs l) (aggregated l)))) by (rewrite Hfst; auto).
    destruct (visit_attrs_coherent _ _ _ _ _ Hc Hnd' Hr) as (Hcz & Hin & Hout).
    repeat split; auto. 
    exists (mkLogger (attrs l) (aggregated l) d' (Datatypes.S (log_len l))).
    repeat split; auto; simpl.
    - intros a Ha. apply in_at in Ha as [i Hi].
      assert (Hi' : (i < length (aggregated l))%nat) by (rewrite Hlen; eapply at_lt; eauto).
      destruct (lt_at _ _ _ Hi') as [g Hg].
      destruct (Hin a g (combine_at _ _ _ _ _ _ _ Hi Hg)) as (v & c & c' & _ & _ & _ & E). eauto.
    - intros a g (i & Hi & Hg). apply Hin. eapply combine_at; eauto.
  Qed.

  Lemma visit_none : forall x y, lg x = None -> visit x = Ok y -> y = x.
  Proof. intros x y Hl H. unfold Base_Model.visit in H. rewrite Hl in H. congruence. Qed.

  Lemma coherent_empty : forall s c l, coherent (mkSim s c [] l).
  Proof. intros s c l n v H; discriminate. Qed.

  (** Steps whose body is finished before the base step. *)
  Hypothesis post_id : forall a c s, post a c s = Ok s.

  Lemma step_spec : forall a x y l, lg x = Some l -> well_formed l -> step a x = Ok y ->
    coherent y /\
    exists l', lg y = Some l' /\ well_formed l' /\ attrs l' = attrs l /\ aggregated l' = aggregated l /\
    forall b g, logs l b g -> exists v c c', raw (st y) (ctr y) b = Ok v /\
      dget String.eqb (store l) b = Some c /\ cell_append c (seen g v) = Ok c' /\
      dget String.eqb (store l') b = Some c'.
  Proof.
    intros a x y l Hl Hw H. unfold Base_Model.step in H. inv_bind H. inv_bind H. rewrite post_id in H. simpl in H.
    injection H as <-. 
    destruct (visit_spec (mkSim r (Datatypes.S (ctr x)) [] (lg x)) r0 l Hl Hw
               (coherent_empty _ _ _) Hr0) as (H1 & H2 & H3 & l' & Hl' & Hw' & Ha & Hg & _ & Hrec).
    simpl in *. split; [exact H3|]. exists l'. repeat split; auto; try apply Hw'.
    intros b g Hb. rewrite H1, H2. apply Hrec; auto.
  Qed.

  (** Successive observations of an attribute. *)
  Inductive observed (b : string) : list A -> nat -> S -> list value -> Prop :=
  | obs_none : forall c s, observed b [] c s []
  | obs_step : forall a t c s s1 v vs, body pre post a c s s1 -> raw s1 (Datatypes.S c) b = Ok v ->
      observed b t (Datatypes.S c) s1 vs -> observed b (a :: t) c s (v :: vs).

  Fixpoint cell_appends (c : cell) (vs : list value) : result cell :=
    match vs with
    | [] => Ok c
    | v :: t => bind (cell_append c v) (fun c' => cell_appends c' t)
    end.

  Lemma run_records : forall args x y l, lg x = Some l -> well_formed l -> run args x = Ok y ->
    exists l', lg y = Some l' /\ well_formed l' /\ attrs l' = attrs l /\ aggregated l' = aggregated l /\
    forall b g, logs l b g -> exists vs c c', observed b args (ctr x) (st x) vs /\
      dget String.eqb (store l) b = Some c /\ cell_appends c (map (seen g) vs) = Ok c' /\
      dget String.eqb (store l') b = Some c'.
  Proof.
    induction args as [|a t IH]; intros x y l Hl Hw H; simpl in H.
    - injection H as <-. exists l. repeat split; auto; try apply Hw.
      intros b g (i & Hi & Hg). destruct Hw as (_ & _ & Hex).
      destruct (Hex b (at_in _ _ _ _ Hi)) as [c Hc]. exists [], c, c. repeat split; auto. constructor.
    - inv_bind H. pose proof (step_frame _ _ _ Hr) as [Hc Hb].
      destruct (step_spec _ _ _ _ Hl Hw Hr) as (_ & l1 & Hl1 & Hw1 & Ha1 & Hg1 & Hrec1).
      destruct (IH _ _ _ Hl1 Hw1 H) as (l2 & Hl2 & Hw2 & Ha2 & Hg2 & Hrec2).
      exists l2. repeat split; auto; try congruence; try apply Hw2.
      intros b g Hlog. destruct (Hrec1 b g Hlog) as (v & c & c' & Hv & Hd & Happ & Hd').
      assert (Hlog1 : logs l1 b g) by (unfold logs in *; rewrite Ha1, Hg1; auto).
      destruct (Hrec2 b g Hlog1) as (vs & e & e' & Hobs & He & Happs & He').
      exists (v :: vs), c, e'. repeat split; auto.
      + rewrite Hc in *. econstructor; eauto.
      + simpl. rewrite Happ. simpl. congruence.
  Qed.

  (** *** Clearing *)

  Lemma clear_all_get : forall l d a, In a l -> dget String.eqb (clear_all l d) a = Some (CList []).
  Proof.
    intros l d a Hin. unfold clear_all.
    assert (G : forall l d, (dget String.eqb d a = Some (CList []) \/ In a l) ->
      dget String.eqb (fold_left (fun d a => dset String.eqb d a (CList [])) l d) a = Some (CList [])).
    { clear. induction l as [|b l IH]; intros d H; simpl.
      - destruct H as [H|[]]; auto.
      - apply IH. destruct (String.eqb_spec a b) as [->|Hne].
        + left. apply (dget_dset_same _ _ String.eqb seqb_eq).
        + destruct H as [H|[H|H]]; [left|congruence|right; auto].
          rewrite (dget_dset_other _ _ String.eqb seqb_eq); auto. }
    apply G; auto.
  Qed.

  Lemma clear_all_other : forall l d a, ~ In a l -> dget String.eqb (clear_all l d) a = dget String.eqb d a.
  Proof.
    unfold clear_all. induction l as [|b l IH]; intros d a H; simpl; auto.
    rewrite IH by (intro; apply H; right; auto).
    apply (dget_dset_other _ _ String.eqb seqb_eq). intros ->; apply H; left; auto.
  Qed.

  (** *** Initialization *)

  Lemma visit_lg : forall x y, visit x = Ok y ->
    match lg x with
    | None => lg y = None
    | Some l => exists d n, lg y = Some (mkLogger (attrs l) (aggregated l) d n)
    end.
  Proof.
    intros x y H. unfold Base_Model.visit in H. destruct (lg x) as [l|] eqn:E.
    - inv_bind H. injection H as <-. simpl. eauto.
    - injection H as <-. auto.
  Qed.

  Lemma step_coherent : forall a x y, step a x = Ok y ->
    match lg x with Some l => well_formed l | None => True end -> coherent y.
  Proof.
    intros a x y H Hw. destruct (lg x) as [l|] eqn:E.
    - destruct (step_spec _ _ _ _ E Hw H) as [Hc _]; auto.
    - unfold Base_Model.step in H. inv_bind H. inv_bind H. rewrite post_id in H. simpl in H. injection H as <-.
      rewrite E in Hr0. apply visit_none in Hr0; auto. subst r0. apply coherent_empty.
  Qed.

  Lemma run_coherent : forall args x y l, run args x = Ok y -> lg x = Some l -> well_formed l ->
    coherent x -> coherent y.
  Proof.
    induction args as [|a t IH]; intros x y l H Hl Hw Hc; simpl in H.
    - injection H as <-; auto.
    - inv_bind H. destruct (step_spec _ _ _ _ Hl Hw Hr) as (Hcr & l1 & Hl1 & Hw1 & _). eauto.
  Qed.

  Lemma init_records : forall z a x y l, coherent (mkSim (st x) 0 (cache x) (lg x)) ->
    lg x = Some l -> well_formed l ->
    initialize (StartInt z) a x = Ok y ->
    exists l', lg y = Some l' /\ well_formed l' /\ attrs l' = attrs l /\ aggregated l' = aggregated l /\
    log_len l' = 1%nat /\ coherent y /\
    forall b g, logs l b g -> exists v c, raw (st y) (ctr y) b = Ok v /\
      cell_append (CList []) (seen g v) = Ok c /\ dget String.eqb (store l') b = Some c.
  Proof.
    intros z a x y l Hcx Hl Hw H. 
    unfold Base_Model.initialize in H. destruct (Z.ltb_spec z 0); [discriminate|].
    inv_bind H.
    destruct (run_records _ (mkSim (st x) 0 (cache x) (lg x)) r l Hl Hw Hr) as (l1 & H1 & H2 & H3 & H4 & _).
    pose proof (run_coherent _ (mkSim (st x) 0 (cache x) (lg x)) _ l Hr Hl Hw Hcx) as Hcr.
    rewrite H1 in H. unfold logger_clear in H. simpl in H.
    set (l2 := mkLogger (attrs l1) (aggregated l1) (clear_all (attrs l1) (store l1)) 0) in *.
    assert (Hw2 : well_formed l2).
    { destruct H2 as (Hnd & Hlen & Hex). repeat split; auto. intros b Hb. exists (CList []).
      unfold l2; simpl. apply clear_all_get; auto. }
    destruct (visit_spec (mkSim (st r) (ctr r) (cache r) (Some l2)) y l2 eq_refl Hw2 Hcr H)
      as (Hst & Hct & Hcy & l' & Hl' & Hw' & Ha & Hg & Hlen & Hrec).
    exists l'. repeat split; auto; try apply Hw'; simpl in *; try congruence.
    intros b g Hlog.
    assert (Hlog2 : logs l2 b g) by (unfold logs, l2 in *; simpl; rewrite H3, H4; auto).
    destruct (Hrec b g Hlog2) as (v & c & c' & Hv & Hd & Happ & Hd').
    rewrite <- Hst, <- Hct in Hv. exists v, c'. repeat split; auto.
    unfold l2 in Hd; simpl in Hd. rewrite clear_all_get in Hd; [congruence|].
    destruct Hlog2 as (i & Hi & _). eapply at_in; eauto.
  Qed.

  (** All records of an attribute after initialization and [args]. *)
  Lemma all_records : forall z a x y l args x', coherent (mkSim (st x) 0 (cache x) (lg x)) ->
    lg x = Some l -> well_formed l -> initialize (StartInt z) a x = Ok y -> run args y = Ok x' ->
    exists l', lg x' = Some l' /\ attrs l' = attrs l /\ 
    forall b g, logs l b g -> exists v0 vs c, raw (st y) (ctr y) b = Ok v0 /\
      observed b args (ctr y) (st y) vs /\
      cell_appends (CList []) (map (seen g) (v0 :: vs)) = Ok c /\
      dget String.eqb (store l') b = Some c.
  Proof.
    intros z a x y l args x' Hc Hl Hw Hi Hr.
    destruct (init_records _ _ _ _ _ Hc Hl Hw Hi) as (l1 & Hl1 & Hw1 & Ha1 & Hg1 & _ & _ & Hrec1).
    destruct (run_records _ _ _ _ Hl1 Hw1 Hr) as (l2 & Hl2 & Hw2 & Ha2 & Hg2 & Hrec2).
    exists l2. repeat split; auto; [congruence|].
    intros b g Hlog. destruct (Hrec1 b g Hlog) as (v & c & Hv & Happ & Hd).
    assert (Hlog1 : logs l1 b g) by (unfold logs in *; rewrite Ha1, Hg1; auto).
    destruct (Hrec2 b g Hlog1) as (vs & e & e' & Hobs & He & Happs & He').
    exists v, vs, e'. repeat split; auto. simpl. rewrite Happ. simpl. congruence.
  Qed.

  Lemma observed_nth : forall b args c s vs, observed b args c s vs ->
    length vs = length args /\
    forall j v, at_ vs j v -> exists s', reaches (firstn (Datatypes.S j) args) c s (c + Datatypes.S j) s' /\
      raw s' (c + Datatypes.S j) b = Ok v.
  Proof.
    intros b args c s vs H. induction H as [c s|a t c s s1 v vs Hb Hv Hobs [IHl IHn]].
    - split; auto. intros [|j] v Hv; discriminate.
    - split; [simpl; lia|]. intros [|j] w Hw; unfold at_ in Hw; simpl in Hw.
      + injection Hw as <-. exists s1. simpl. replace (c + 1)%nat with (Datatypes.S c) by lia. split; auto.
        econstructor; eauto. constructor.
      + destruct (IHn j w Hw) as (s' & Hr & Hs'). exists s'.
        replace (c + Datatypes.S (Datatypes.S j))%nat with (Datatypes.S c + Datatypes.S j)%nat by lia.
        split; auto. simpl. econstructor; eauto.
  Qed.

  (** Entry [j] of the records: the attribute after initialization and [j] steps. *)
  Lemma observed_all_nth : forall b args c s v0 vs, raw s c b = Ok v0 -> observed b args c s vs ->
    length (v0 :: vs) = Datatypes.S (length args) /\
    forall j v, at_ (v0 :: vs) j v -> exists s', reaches (firstn j args) c s (c + j) s' /\ raw s' (c + j) b = Ok v.
  Proof.
    intros b args c s v0 vs H0 H. apply observed_nth in H as [Hl Hn]. split; [simpl; lia|].
    intros [|j] v Hv; unfold at_ in Hv; simpl in Hv.
    - injection Hv as <-. exists s. rewrite Nat.add_0_r. split; [constructor|auto].
    - apply Hn; auto.
  Qed.

  Lemma removelast_at : forall A (l : list A) j x, (Datatypes.S j < length l)%nat -> at_ l j x -> at_ (removelast l) j x.
  Proof.
    induction l as [|y l IH]; intros j x Hj Hx; [simpl in Hj; lia|].
    destruct l as [|z l]; [simpl in Hj; lia|].
    change (removelast (y :: z :: l)) with (y :: removelast (z :: l)).
    destruct j as [|j]; auto. unfold at_ in *; simpl nth_error in *. apply IH; auto. simpl in *; lia.
  Qed.

  Lemma removelast_length : forall A (l : list A), length (removelast l) = (length l - 1)%nat.
  Proof.
    induction l as [|y l IH]; auto. destruct l as [|z l]; auto.
    change (removelast (y :: z :: l)) with (y :: removelast (z :: l)). simpl length in *. lia.
  Qed.

  (** *** Columns *)

  Definition simple_of (v : value) : simple := match v with VS s => s | VD _ => SNum 0 end.

  Lemma cell_appends_simple : forall vs l, (forall v, In v vs -> exists s, v = VS s) ->
    cell_appends (CList l) vs = Ok (CList (l ++ map simple_of vs)).
  Proof.
    induction vs as [|v vs IH]; intros l H; simpl; [rewrite app_nil_r; auto|].
    destruct (H v (or_introl eq_refl)) as [s ->]. simpl.
    rewrite IH by (intros; apply H; right; auto). rewrite <- app_assoc. reflexivity.
  Qed.

  Lemma append_all_spec : forall d cur x, NoDup (map fst d) -> append_all cur d = Ok x ->
    forall k, match dget String.eqb d k with
              | Some s => exists l, dget String.eqb cur k = Some l /\ dget String.eqb x k = Some (l ++ [s])
              | None => dget String.eqb x k = dget String.eqb cur k
              end.
  Proof.
    induction d as [|[k1 s1] d IH]; intros cur x Hnd H k; simpl in H.
    - injection H as <-; reflexivity.
    - destruct (dget String.eqb cur k1) as [l|] eqn:E; [|discriminate].
      simpl in Hnd; inversion Hnd as [|? ? Hni Hnd']; subst.
      specialize (IH _ _ Hnd' H k). simpl. destruct (String.eqb_spec k k1) as [->|Hne].
      + rewrite (dget_notin _ _ String.eqb seqb_eq d k1 Hni) in IH. exists l. split; auto.
        rewrite IH. apply (dget_dset_same _ _ String.eqb seqb_eq).
      + rewrite (dget_dset_other _ _ String.eqb seqb_eq) in IH by auto. exact IH.
  Qed.

  Lemma dict_columns : forall vs cur c k, 
    cell_appends (CDict cur) vs = Ok c ->
    (forall v, In v vs -> exists d, v = VD d /\ NoDup (map fst d) /\ dget String.eqb d k <> None) ->
    forall l, dget String.eqb cur k = Some l ->
    exists x col, c = CDict x /\ dget String.eqb x k = Some (l ++ col) /\ length col = length vs /\
      forall j v, at_ vs j v -> exists d s, v = VD d /\ dget String.eqb d k = Some s /\ at_ col j s.
  Proof.
    induction vs as [|v vs IH]; intros cur c k H Hall l Hl; simpl in H.
    - injection H as <-. exists cur, []. rewrite app_nil_r. repeat split; auto. intros [|j] v Hv; discriminate.
    - destruct (Hall v (or_introl eq_refl)) as (d & -> & Hnd & Hk). simpl in H.
      destruct (append_all cur d) as [x|e] eqn:Ea; simpl in H; [|discriminate].
      pose proof (append_all_spec _ _ _ Hnd Ea k) as Hs.
      destruct (dget String.eqb d k) as [s|] eqn:Ed; [|congruence].
      destruct Hs as (l' & Hl' & Hx). assert (l' = l) by congruence; subst l'.
      destruct (IH _ _ k H ltac:(intros; apply Hall; right; auto) _ Hx) as (x' & col & -> & Hx' & Hlen & Hn).
      exists x', (s :: col). repeat split; auto.
      + rewrite Hx', <- app_assoc. reflexivity.
      + simpl; lia.
      + intros [|j] v Hv; unfold at_ in Hv; simpl in Hv.
        * injection Hv as <-. exists d, s. repeat split; auto.
        * apply Hn; auto.
  Qed.

  Lemma dget_map_nil : forall (d : list (string * simple)) k, dget String.eqb d k <> None ->
    dget String.eqb (map (fun kv => (fst kv, @nil simple)) d) k = Some [].
  Proof.
    induction d as [|[k1 s] d IH]; intros k H; simpl in *; [congruence|].
    destruct (String.eqb k k1); auto.
  Qed.

  Lemma dict_columns_start : forall v vs c k,
    cell_appends (CList []) (v :: vs) = Ok c ->
    (forall w, In w (v :: vs) -> exists d, w = VD d /\ NoDup (map fst d) /\ dget String.eqb d k <> None) ->
    exists x col, c = CDict x /\ dget String.eqb x k = Some col /\ length col = length (v :: vs) /\
      forall j w, at_ (v :: vs) j w -> exists d s, w = VD d /\ dget String.eqb d k = Some s /\ at_ col j s.
  Proof.
    intros v vs c k H Hall.
    destruct (Hall v (or_introl eq_refl)) as (d & Hv & Hnd & Hk).
    assert (H' : cell_appends (CDict (map (fun kv => (fst kv, @nil simple)) d)) (v :: vs) = Ok c)
      by (rewrite Hv in *; exact H).
    destruct (dict_columns _ _ _ k H' Hall [] (dget_map_nil d k Hk)) as (x & col & Hx). eauto.
  Qed.

  (** *** Cached getters are transparent *)

  Lemma exec_transparent : forall ops x outs x', coherent x ->
    match lg x with Some l => well_formed l | None => True end ->
    exec ops x = Ok (outs, x') ->
    exists y', Base_Model.exec pre post raw (fun _ => false) ops (mkSim (st x) (ctr x) [] None) = Ok (outs, y') /\
      st y' = st x' /\ ctr y' = ctr x'.
  Proof.
    induction ops as [|[n i|a] ops IH]; intros x outs x' Hc Hw H; simpl in H |- *.
    - injection H as <- <-. eexists; split; [reflexivity|]; auto.
    - inv_bind H. inv_bind H. inv_bind H. destruct r as [v z]; destruct r1 as [vs w]; simpl in *.
      injection H as <- <-.
      pose proof (call_frame _ _ _ _ Hr) as (H1 & H2 & H3).
      destruct (call_coherent _ _ _ _ Hc Hr) as [Hraw Hcz].
      destruct (IH z vs w Hcz ltac:(rewrite H3; auto) Hr1) as (y' & Hy & E1 & E2).
      rewrite H1, H2 in Hy. exists y'. split; auto.
      unfold Base_Model.call; simpl. rewrite Hraw; simpl. rewrite Hr0; simpl. rewrite Hy. reflexivity.
    - inv_bind H. pose proof (step_coherent _ _ _ Hr Hw) as Hcr.
      assert (Hwr : match lg r with Some l => well_formed l | None => True end).
      { destruct (lg x) as [l|] eqn:El.
        - destruct (step_spec _ _ _ _ El Hw Hr) as (_ & l1 & Hl1 & Hw1 & _). rewrite Hl1; auto.
        - unfold Base_Model.step in Hr. inv_bind Hr. inv_bind Hr. rewrite post_id in Hr; simpl in Hr.
          injection Hr as <-. rewrite El in Hr1. apply visit_none in Hr1; auto. subst; simpl; auto. }
      destruct (IH r outs x' Hcr Hwr H) as (y' & Hy & E1 & E2).
      destruct (step_frame _ _ _ Hr) as (Hct & m & Hm & Hp). rewrite post_id in Hp. injection Hp as ->.
      exists y'. split; auto. unfold Base_Model.step. simpl. rewrite Hm; simpl.
      unfold Base_Model.visit; simpl. rewrite post_id; simpl. rewrite <- Hct. exact Hy.
  Qed.

  (** Without a logger the cache also never makes a call fail. *)
  Lemma exec_transparent_complete : forall ops x outs y', coherent x -> lg x = None ->
    Base_Model.exec pre post raw (fun _ => false) ops (mkSim (st x) (ctr x) [] None) = Ok (outs, y') ->
    exists x', exec ops x = Ok (outs, x') /\ st x' = st y' /\ ctr x' = ctr y'.
  Proof.
    induction ops as [|[n i|a] ops IH]; intros x outs y' Hc Hl H; simpl in H |- *.
    - injection H as <- <-. eexists; split; [reflexivity|]; auto.
    - inv_bind H. inv_bind H. inv_bind H. destruct r as [v z]; destruct r1 as [vs w]; simpl in *.
      injection H as <- <-. unfold Base_Model.call in Hr; simpl in Hr. inv_bind Hr. injection Hr as -> <-.
      assert (Hcall : exists x1, call x n = Ok (v, x1)).
      { unfold Base_Model.call. destruct (is_cached n).
        - destruct (dget String.eqb (cache x) n) as [u|] eqn:E.
          + apply Hc in E. rewrite Hr2 in E. injection E as ->. eauto.
          + rewrite Hr2; simpl. eauto.
        - rewrite Hr2; simpl; eauto. }
      destruct Hcall as [x1 Hx1]. pose proof (call_frame _ _ _ _ Hx1) as (H1 & H2 & H3).
      destruct (call_coherent _ _ _ _ Hc Hx1) as [_ Hc1].
      destruct (IH x1 vs w Hc1 ltac:(congruence) ltac:(rewrite H1, H2; exact Hr1)) as (x' & Hx & E1 & E2).
      exists x'. rewrite Hx1; simpl. rewrite Hr0; simpl. rewrite Hx; simpl. auto.
    - inv_bind H. unfold Base_Model.step in Hr; simpl in Hr. inv_bind Hr.
      rewrite post_id in Hr; simpl in Hr. injection Hr as <-.
      destruct (IH (mkSim r0 (Datatypes.S (ctr x)) [] None) outs y' (coherent_empty _ _ _) eq_refl H) as (x' & Hx & E1 & E2).
      exists x'. unfold Base_Model.step. rewrite Hr0; simpl. rewrite Hl. unfold Base_Model.visit; simpl.
      rewrite post_id; simpl. auto.
  Qed.
End SimProofs.

(** ** Logger readings *)

Lemma in_attrs_true : forall x a, In a (attrs x) -> in_attrs x a = true.
Proof. intros x a H. apply existsb_exists. exists a. split; auto. apply String.eqb_refl. Qed.

Lemma in_attrs_iff : forall x a, in_attrs x a = true <-> In a (attrs x).
Proof.
  intros x a; split; [|apply in_attrs_true]. intro H. apply existsb_exists in H as [b [Hb E]].
  apply String.eqb_eq in E; subst; auto.
Qed.

Lemma aggregate_simple_summed : forall s, summed s (aggregate_simple s).
Proof. intros [l|q|t]; simpl; auto. rewrite (total_qsum l). reflexivity. Qed.

Section Aligned.
  Variables (S A : Type) (pre post : A -> nat -> S -> result S).
  Variables (raw : S -> nat -> string -> result value) (is_cached : string -> bool).
  Hypothesis post_id : forall a c s, post a c s = Ok s.

  Theorem logger_aligned : forall z a x y l args x' b g,
    coherent raw (mkSim (st x) 0 (cache x) (lg x)) -> lg x = Some l -> well_formed l -> logs l b g ->
    initialize pre post raw is_cached (StartInt z) a x = Ok y ->
    run pre post raw is_cached args y = Ok x' ->
    (forall s c v, raw s c b = Ok v -> exists w, v = VS w) ->
    exists l' out, lg x' = Some l' /\ logger_get l' (Some b) = Ok (CList out) /\ length out = length args /\
    forall j w, at_ out j w -> exists s' v,
      reaches _ _ (body pre post) (firstn j args) (Z.to_nat z) (st y) (Z.to_nat z + j) s' /\
      raw s' (Z.to_nat z + j)%nat b = Ok (VS v) /\ kept g v w.
  Proof.
    intros z a x y l args x' b g Hc Hl Hw Hlog Hi Hr Hsimple.
    pose proof (initialize_frame _ _ _ _ _ _ _ _ _ _ Hi) as (_ & Hctr & _).
    destruct (all_records _ _ _ _ _ _ post_id _ _ _ _ _ _ _ Hc Hl Hw Hi Hr) as (l' & Hl' & Ha & Hrec).
    destruct (Hrec b g Hlog) as (v0 & vs & c & Hv0 & Hobs & Happ & Hd).
    pose proof (observed_all_nth _ _ _ _ _ _ _ _ _ _ _ Hv0 Hobs) as [Hlen Hn].
    assert (HVS : forall v, In v (map (seen g) (v0 :: vs)) -> exists s, v = VS s).
    { intros v Hv. apply in_map_iff in Hv as [u [<- Hu]]. apply in_at in Hu as [j Hj].
      destruct (Hn j u Hj) as (s' & _ & Hraw). destruct (Hsimple _ _ _ Hraw) as [w ->].
      unfold seen. destruct g; simpl; eauto. }
    rewrite (cell_appends_simple _ _ HVS) in Happ. injection Happ as <-.
    assert (Hin : In b (attrs l')).
    { rewrite Ha. destruct Hlog as (i & Hi' & _). eapply at_in; eauto. }
    exists l', (removelast (map simple_of (map (seen g) (v0 :: vs)))).
    split; [exact Hl'|]. split.
    { unfold logger_get; simpl bind. rewrite (in_attrs_true _ _ Hin), Hd. reflexivity. }
    split.
    { rewrite removelast_length, !map_length, Hlen. lia. }
    intros j w Hw'. 
    assert (Hj : (j < length args)%nat).
    { apply at_lt in Hw'. rewrite removelast_length, !map_length, Hlen in Hw'. lia. }
    destruct (lt_at _ (v0 :: vs) j ltac:(rewrite Hlen; lia)) as [u Hu].
    destruct (Hn j u Hu) as (s' & Hreach & Hraw). destruct (Hsimple _ _ _ Hraw) as [v ->].
    rewrite Hctr in Hreach, Hraw.
    exists s', v. repeat split; auto.
    assert (E : at_ (removelast (map simple_of (map (seen g) (v0 :: vs)))) j (simple_of (seen g (VS v)))).
    { apply removelast_at; [rewrite !map_length, Hlen; lia|]. unfold at_ in *.
      rewrite nth_error_map, nth_error_map, Hu. reflexivity. }
    rewrite (at_fun _ _ _ _ _ Hw' E). unfold kept, seen. destruct g; simpl; auto.
    apply aggregate_simple_summed.
  Qed.

  Theorem logger_aligned_dict : forall z a x y l args x' b g k,
    coherent raw (mkSim (st x) 0 (cache x) (lg x)) -> lg x = Some l -> well_formed l -> logs l b g ->
    initialize pre post raw is_cached (StartInt z) a x = Ok y ->
    run pre post raw is_cached args y = Ok x' ->
    (forall s c v, raw s c b = Ok v -> exists d, v = VD d /\ NoDup (map fst d) /\ dget String.eqb d k <> None) ->
    exists l' d out, lg x' = Some l' /\ logger_get l' (Some b) = Ok (CDict d) /\
    dget String.eqb d k = Some out /\ length out = length args /\
    forall j w, at_ out j w -> exists s' e v,
      reaches _ _ (body pre post) (firstn j args) (Z.to_nat z) (st y) (Z.to_nat z + j) s' /\
      raw s' (Z.to_nat z + j)%nat b = Ok (VD e) /\ dget String.eqb e k = Some v /\ kept g v w.
  Proof.
    intros z a x y l args x' b g k Hc Hl Hw Hlog Hi Hr Hdict.
    pose proof (initialize_frame _ _ _ _ _ _ _ _ _ _ Hi) as (_ & Hctr & _).
    destruct (all_records _ _ _ _ _ _ post_id _ _ _ _ _ _ _ Hc Hl Hw Hi Hr) as (l' & Hl' & Ha & Hrec).
    destruct (Hrec b g Hlog) as (v0 & vs & c & Hv0 & Hobs & Happ & Hd).
    pose proof (observed_all_nth _ _ _ _ _ _ _ _ _ _ _ Hv0 Hobs) as [Hlen Hn].
    assert (Hagg : forall d k', dget String.eqb (map (fun kv : string * simple => (fst kv, aggregate_simple (snd kv))) d) k' =
              option_map aggregate_simple (dget String.eqb d k')).
    { clear. induction d as [|[k1 s] d IH]; intro k'; simpl; auto. destruct (String.eqb k' k1); auto. }
    assert (HVD : forall v, In v (map (seen g) (v0 :: vs)) ->
              exists d, v = VD d /\ NoDup (map fst d) /\ dget String.eqb d k <> None).
    { intros v Hv. apply in_map_iff in Hv as [u [<- Hu]]. apply in_at in Hu as [j Hj].
      destruct (Hn j u Hj) as (s' & _ & Hraw). destruct (Hdict _ _ _ Hraw) as (d & -> & Hnd & Hk).
      unfold seen. destruct g; simpl; [|eauto]. eexists; split; [reflexivity|]. split.
      - rewrite map_map. simpl. exact Hnd.
      - rewrite Hagg. destruct (dget String.eqb d k); simpl; congruence. }
    simpl map in Happ, HVD.
    destruct (dict_columns_start _ _ _ k Happ HVD) as (xd & col & -> & Hcol & Hcl & Hcn).
    assert (Hin : In b (attrs l')).
    { rewrite Ha. destruct Hlog as (i & Hi' & _). eapply at_in; eauto. }
    exists l', (map (fun kv : string * list simple => (fst kv, removelast (snd kv))) xd), (removelast col).
    split; [exact Hl'|]. split.
    { unfold logger_get; simpl bind. rewrite (in_attrs_true _ _ Hin), Hd. reflexivity. }
    split.
    { clear -Hcol. revert Hcol. induction xd as [|[k1 s] xd IH]; simpl; [discriminate|].
      destruct (String.eqb k k1); auto. congruence. }
    change (seen g v0 :: map (seen g) vs) with (map (seen g) (v0 :: vs)) in *.
    rewrite map_length in Hcl.
    split.
    { rewrite removelast_length, Hcl, Hlen. lia. }
    intros j w Hw'.
    assert (Hj : (j < length args)%nat).
    { apply at_lt in Hw'. rewrite removelast_length, Hcl, Hlen in Hw'. lia. }
    destruct (lt_at _ (v0 :: vs) j ltac:(rewrite Hlen; lia)) as [u Hu].
    destruct (Hn j u Hu) as (s' & Hreach & Hraw).
    destruct (Hdict _ _ _ Hraw) as (d & -> & Hnd & Hk).
    rewrite Hctr in Hreach, Hraw.
    destruct (Hcn j (seen g (VD d))) as (d' & s & Hd' & Hs & Hat).
    { unfold at_ in *. rewrite nth_error_map, Hu. reflexivity. }
    assert (Hww : w = s).
    { eapply at_fun; [exact Hw'|]. apply removelast_at; [rewrite Hcl, Hlen; lia|exact Hat]. }
    subst w. destruct (dget String.eqb d k) as [v|] eqn:Ev; [|congruence].
    exists s', d, v. repeat split; auto. unfold seen, kept in *. destruct g; simpl in Hd'; injection Hd' as <-.
    - rewrite Hagg, Ev in Hs. simpl in Hs. injection Hs as <-. apply aggregate_simple_summed.
    - congruence.
  Qed.
End Aligned.

(** ** Logger construction, clear, add, copy *)

Lemma logger_init_wf : forall names agg l, NoDup names -> logger_init names agg = Ok l ->
  well_formed l /\ attrs l = names /\ log_len l = 0%nat /\ (forall a, In a names -> no_data l a).
Proof.
  intros names agg l Hnd H. unfold logger_init in H.
  assert (G : forall b, length b = length names -> 
     well_formed (mkLogger names b (clear_all names []) 0) /\
     (forall a, In a names -> no_data (mkLogger names b (clear_all names []) 0) a)).
  { intros b Hb. split; [split; [auto|split; [auto|]]|]; intros a Ha.
    - exists (CList []). apply clear_all_get; auto.
    - apply clear_all_get; auto. }
  destruct agg as [b|b|].
  - destruct (Nat.eqb_spec (length b) (length names)); [|discriminate]. injection H as <-.
    destruct (G b e). auto.
  - injection H as <-. destruct (G (map (fun a => if protected a then false else b) names)) as [G1 G2]; auto.
    apply map_length.
  - discriminate.
Qed.

Lemma logger_init_flags : forall names agg l a g, logger_init names agg = Ok l -> logs l a g ->
  match agg with
  | AggBool b => g = if String.eqb a "current_time" then false else b
  | AggList bs => exists i, at_ names i a /\ at_ bs i g
  | AggOther => False
  end.
Proof.
  intros names agg l a g H (i & Hi & Hg). unfold logger_init in H. destruct agg as [b|b|].
  - destruct (Nat.eqb_spec (length b) (length names)); [|discriminate]. injection H as <-. eauto.
  - injection H as <-. simpl in *. unfold at_ in *. rewrite nth_error_map, Hi in Hg. simpl in Hg.
    injection Hg as <-. reflexivity.
  - discriminate.
Qed.

Lemma clear_all_spec : forall x, exists y, logger_clear x ClearAll = Ok y /\
  attrs y = attrs x /\ aggregated y = aggregated x /\ log_len y = 0%nat /\
  (forall a, In a (attrs x) -> no_data y a).
Proof.
  intro x. eexists; split; [reflexivity|]. repeat split; auto. intros a Ha. apply clear_all_get; auto.
Qed.

Lemma clear_one_spec : forall x a,
  (~ In a (attrs x) -> logger_clear x (ClearOne a) = Err ValueError) /\
  (In a (attrs x) -> exists y, logger_clear x (ClearOne a) = Ok y /\
    attrs y = attrs x /\ aggregated y = aggregated x /\ no_data y a /\
    forall b, b <> a -> dget String.eqb (store y) b = dget String.eqb (store x) b).
Proof.
  intros x a. unfold logger_clear, clear_one. split; intro H.
  - destruct (in_attrs x a) eqn:E; auto. apply in_attrs_iff in E; tauto.
  - rewrite (in_attrs_true _ _ H). eexists; split; [reflexivity|]. repeat split; auto.
    + unfold no_data; simpl. apply (dget_dset_same _ _ String.eqb seqb_eq).
    + intros b Hb. simpl. apply (dget_dset_other _ _ String.eqb seqb_eq); auto.
Qed.

Lemma clear_list_spec : forall names x y, logger_clear x (ClearList names) = Ok y ->
  attrs y = attrs x /\ log_len y = 0%nat /\
  (forall a, In a names -> no_data y a) /\
  (forall b, ~ In b names -> dget String.eqb (store y) b = dget String.eqb (store x) b).
Proof.
  unfold logger_clear. induction names as [|a names IH]; intros x y H; simpl in H.
  - injection H as <-. repeat split; auto. intros a [].
  - destruct (clear_one x a) as [z|e] eqn:E; simpl in H; [|discriminate].
    destruct (IH _ _ H) as (H1 & H2 & H3 & H4).
    assert (Hz : attrs z = attrs x /\ no_data z a /\ forall b, b <> a -> dget String.eqb (store z) b = dget String.eqb (store x) b).
    { destruct (clear_one_spec x a) as [Hn Hy]. unfold logger_clear in *.
      destruct (in_dec string_dec a (attrs x)) as [Hi|Hi].
      - destruct (Hy Hi) as (z' & Hz' & ? & ? & ? & ?). rewrite E in Hz'. injection Hz' as <-. auto.
      - rewrite (Hn Hi) in E. discriminate. }
    destruct Hz as (Z1 & Z2 & Z3). repeat split; auto; [congruence| |].
    + intros b [<-|Hb]; auto. destruct (in_dec string_dec a names) as [Hi|Hi]; auto.
      unfold no_data. rewrite H4 by auto. exact Z2.
    + intros b Hb. rewrite H4 by (intro; apply Hb; right; auto). apply Z3. intros ->; apply Hb; left; auto.
Qed.

Lemma dict_update_get : forall e d a, NoDup (map fst e) ->
  dget String.eqb (dict_update d e) a =
  match dget String.eqb e a with Some c => Some c | None => dget String.eqb d a end.
Proof.
  unfold dict_update. induction e as [|[k c] e IH]; intros d a Hnd; auto.
  inversion Hnd as [|? ? Hni Hnd']; subst. simpl fold_left. rewrite IH by auto. simpl dget.
  destruct (String.eqb_spec a k) as [->|Hne].
  - rewrite (dget_notin _ _ String.eqb seqb_eq e k Hni). apply (dget_dset_same _ _ String.eqb seqb_eq).
  - rewrite (dget_dset_other _ _ String.eqb seqb_eq) by auto. reflexivity.
Qed.

Lemma logger_add_spec : forall x y, NoDup (map fst (store y)) ->
  (log_len x <> log_len y -> logger_add x y = Err ValueError) /\
  (log_len x = log_len y -> exists w, logger_add x y = Ok w /\
    attrs w = attrs x ++ attrs y /\ aggregated w = aggregated x ++ aggregated y /\ log_len w = log_len x /\
    (forall a c, dget String.eqb (store y) a = Some c -> dget String.eqb (store w) a = Some c) /\
    (forall a, dget String.eqb (store y) a = None -> dget String.eqb (store w) a = dget String.eqb (store x) a) /\
    (forall a c, In a (attrs x) -> logger_get x (Some a) = Ok c ->
        dget String.eqb (store y) a = None -> logger_get w (Some a) = Ok c) /\
    (forall a c, In a (attrs y) -> logger_get y (Some a) = Ok c -> logger_get w (Some a) = Ok c)).
Proof.
  intros x y Hnd. unfold logger_add. split; intro H.
  - apply Nat.eqb_neq in H; rewrite H; auto.
  - rewrite H, Nat.eqb_refl. eexists; split; [reflexivity|].
    split; [reflexivity|]. split; [reflexivity|]. split; [reflexivity|].
    assert (G1 : forall a c, dget String.eqb (store y) a = Some c ->
              dget String.eqb (dict_update (store x) (store y)) a = Some c).
    { intros a c Ha. rewrite dict_update_get, Ha; auto. }
    assert (G2 : forall a, dget String.eqb (store y) a = None ->
              dget String.eqb (dict_update (store x) (store y)) a = dget String.eqb (store x) a).
    { intros a Ha. rewrite dict_update_get, Ha; auto. }
    split; [exact G1|]. split; [exact G2|]. split.
    + intros a c Ha E Hn. unfold logger_get in *; simpl bind in *.
      rewrite (in_attrs_true _ _ Ha) in E.
      rewrite (in_attrs_true (mkLogger _ _ _ _) a) by (simpl; apply in_or_app; auto).
      simpl store. rewrite G2; auto.
    + intros a c Ha E. unfold logger_get in *; simpl bind in *.
      rewrite (in_attrs_true _ _ Ha) in E.
      rewrite (in_attrs_true (mkLogger _ _ _ _) a) by (simpl; apply in_or_app; auto).
      simpl store. destruct (dget String.eqb (store y) a) as [c'|] eqn:Ec; [|discriminate].
      rewrite (G1 a c' Ec). exact E.
Qed.

Lemma logger_copy_spec : forall x, length (aggregated x) = length (attrs x) ->
  exists y, logger_copy x = Ok y /\ attrs y = attrs x /\ aggregated y = aggregated x /\
  log_len y = log_len x /\ (forall a, In a (attrs x) -> no_data y a).
Proof.
  intros x H. unfold logger_copy, logger_init. rewrite H, Nat.eqb_refl. simpl.
  eexists; split; [reflexivity|]. repeat split; auto. intros a Ha. apply clear_all_get; auto.
Qed.

Lemma logger_copy_wf : forall x y, well_formed x -> logger_copy x = Ok y -> well_formed y.
Proof.
  intros x y (Hnd & Hlen & _) H. destruct (logger_copy_spec x Hlen) as (z & Hz & Ha & Hg & _ & Hn).
  rewrite H in Hz; injection Hz as <-. split; [congruence|]. split; [congruence|].
  intros a Hin. rewrite Ha in Hin. exists (CList []). apply Hn; auto.
Qed.
