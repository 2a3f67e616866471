(** * Proofs about the load simulator. *)

From Coq Require Import String List ZArith QArith Bool Arith Lia Lqa.
From Verif Require Import Prelude PreludeFacts SpecBase SpecBaseFacts Base_Model Base_Spec Base_Proofs
  Sampling_Model Sampling_Proofs LoadSim_Model LoadSim_Spec.
Import ListNotations.
Require Import ZifyBool ZifyNat ZifyN.
Ltac Zify.zify_post_hook ::= Z.div_mod_to_equations.
Local Open Scope nat_scope.

(** ** Runs *)

Lemma reaches_snoc : forall St A (one : A -> nat -> St -> St -> Prop) l a c s c' s',
  reaches St A one (l ++ [a]) c s c' s' ->
  exists m, reaches St A one l c s (c + length l) m /\ one a (c + length l) m s' /\ c' = S (c + length l).
Proof.
  induction l as [|b l IH]; intros a c s c' s' H.
  - inversion H as [|? ? ? ? s1 ? ? O R]; subst. inversion R; subst.
    exists s. cbn [length]. rewrite Nat.add_0_r. split; [constructor|]. split; [assumption|reflexivity].
  - cbn [app] in H. inversion H as [|? ? ? ? s1 ? ? O R]; subst.
    destruct (IH _ _ _ _ _ R) as (m & R1 & O1 & E). cbn [length].
    replace (c + S (length l)) with (S c + length l) by lia.
    exists m. split; [econstructor; eassumption|]. split; assumption.
Qed.

Lemma reaches_length : forall St A (one : A -> nat -> St -> St -> Prop) l c s c' s',
  reaches St A one l c s c' s' -> c' = c + length l.
Proof. induction 1; cbn [length]; lia. Qed.

(** ** Sums *)

Lemma np_add_same : forall a b, length a = length b -> np_add a b = Ok (map2 Qplus a b).
Proof. intros a b H. unfold np_add. rewrite H, Nat.eqb_refl. reflexivity. Qed.

Lemma np_add_at : forall a b c, length a = length b -> length b = length c ->
  is_sum3 a b c (map2 Qplus (map2 Qplus a b) c).
Proof.
  intros a b c H1 H2. do 3 (split; [rewrite !map2_length; lia|]). intros h x y z Hx Hy Hz.
  exists (x + y + z)%Q. split; [|reflexivity]. unfold at_ in *.
  rewrite (map2_nth _ _ _ Qplus (map2 Qplus a b) c h). rewrite (map2_nth _ _ _ Qplus a b h), Hx, Hy, Hz. reflexivity.
Qed.

Section Load.
  Variables (Cl Ac Ap Li He X : Type) (P : parts Cl Ac Ap Li He X).
  Notation load := (load Cl Ac Ap Li He).
  Notation pre := (load_pre P).
  Notation one := (body (load_pre P) (@no_post load (load_args X))).

  Lemma one_pre : forall a c s s', one a c s s' <-> pre a c s = Ok s'.
  Proof.
    intros a c s s'. unfold body, no_post. split.
    - intros (m & H & E). injection E as ->. exact H.
    - intro H. exists s'. split; [exact H|reflexivity].
  Qed.

  (** Inversion of a step. *)
  Lemma pre_inv : forall a c s s', pre a c s = Ok s' ->
    exists t irr,
      climate_moves P (climate s) = Ok (climate s') /\
      weather P a (climate s') = Ok (t, irr) /\
      (if c mod 10 =? 0 then ac_step P (activity s) else Ok (activity s)) = Ok (activity s') /\
      ap_step P (ac_occupancy P (activity s')) (appliances s) = Ok (appliances s') /\
      li_step P (ac_occupancy P (activity s'), irr) (light s) = Ok (light s') /\
      both (fun h h' => he_step P
        (mkHeatIn t irr (ap_dhw P (appliances s')) (ac_gains P (activity s')) (li_gains P (light s'))
           (ap_gains P (appliances s')) (external_heat a)) h = Ok h') (heating s) (heating s') /\
      n_hh s' = n_hh s.
  Proof.
    intros a c s s' H. unfold load_pre in H.
    apply bind_ok in H. destruct H as (cl & E1 & H).
    apply bind_ok in H. destruct H as ([t irr] & E2 & H).
    apply bind_ok in H. destruct H as (ac & E3 & H).
    apply bind_ok in H. destruct H as (ap & E4 & H).
    apply bind_ok in H. destruct H as (li & E5 & H).
    apply bind_ok in H. destruct H as (he & E6 & H).
    injection H as <-. cbn [climate activity appliances light heating n_hh fst snd] in *.
    exists t, irr. repeat (split; [assumption|]). split; [|reflexivity].
    destruct (heating s) as [h|].
    - apply bind_ok in E6. destruct E6 as (h' & E6 & E). injection E as <-. exact E6.
    - injection E6 as <-. exact I.
  Qed.

  Lemma shown_ok : forall get s0 k c0 ck, climate s0 = Some c0 -> after (cl_step P) k c0 ck ->
    shown_by Cl Ac Ap Li He X P get s0 k (get ck).
  Proof. intros. exists c0, ck. auto. Qed.

  Lemma firstn_snoc_le : forall A (l : list A) x k, k < length l -> firstn (S k) (l ++ [x]) = firstn (S k) l.
  Proof. intros A l x k H. rewrite firstn_app. replace (S k - length l) with 0 by lia. rewrite app_nil_r. reflexivity. Qed.

  Lemma at_snoc_l : forall A (l : list A) x k v, at_ l k v -> at_ (l ++ [x]) k v.
  Proof. intros A l x k v H. unfold at_ in *. rewrite nth_error_app1; [exact H|]. apply nth_error_Some. congruence. Qed.

  Lemma at_snoc_r : forall A (l : list A) x, at_ (l ++ [x]) (length l) x.
  Proof. intros. unfold at_. rewrite nth_error_app2 by lia. rewrite Nat.sub_diag. reflexivity. Qed.

  Theorem trajectory_ok : forall args s0 c s,
    reaches _ _ one args 0 s0 c s -> trajectory Cl Ac Ap Li He X P args s0 s.
  Proof.
    induction args as [|a args IH] using rev_ind; intros s0 c s H.
    - inversion H; subst. exists [], [], []. repeat (split; [reflexivity|]).
      split; [destruct (climate s); [constructor|exact I]|].
      split; [constructor|]. split; [constructor|]. split; [constructor|].
      split; [destruct (heating s); [constructor|exact I]|].
      intros k a K. destruct k; discriminate.
    - destruct (reaches_snoc _ _ _ _ _ _ _ _ _ H) as (m & R & O & Ec). rewrite Nat.add_0_l in *.
      destruct (IH _ _ _ R) as (aps & lis & hes & L1 & L2 & L3 & N & C & A & D1 & D2 & D3 & K).
      apply one_pre in O. destruct (pre_inv _ _ _ _ O) as (t & irr & E1 & E2 & E3 & E4 & E5 & E6 & E7).
      set (h := mkHeatIn t irr (ap_dhw P (appliances s)) (ac_gains P (activity s)) (li_gains P (light s)) (ap_gains P (appliances s)) (external_heat a)) in *.
      exists (aps ++ [ac_occupancy P (activity s)]), (lis ++ [(ac_occupancy P (activity s), irr)]), (hes ++ [h]).
      rewrite !app_length. cbn [length].
      split; [lia|]. split; [lia|]. split; [lia|]. split; [congruence|].
      assert (C' : both (after (cl_step P) (length args + 1)) (climate s0) (climate s)).
      { rewrite Nat.add_1_r. unfold both in C. unfold climate_moves in E1.
        destruct (climate s0) as [c0|], (climate m) as [cm|]; try contradiction.
        - apply bind_ok in E1. destruct E1 as (c1 & E1 & E). injection E as E. rewrite <- E. cbn. econstructor; eassumption.
        - injection E1 as E. rewrite <- E. exact I. }
      split; [exact C'|].
      assert (A' : after (ac_step P) (length args / 10 + 1) (activity s0) (activity s) /\ length args / 10 + 1 = (length args + 1 + 9) / 10).
      { split; [|lia]. destruct (Nat.eqb_spec (length args mod 10) 0) as [Z|Z].
        - replace (length args / 10 + 1) with (S ((length args + 9) / 10)) by lia. econstructor; eassumption.
        - replace (length args / 10 + 1) with ((length args + 9) / 10) by lia. injection E3 as E3. rewrite <- E3. exact A. }
      destruct A' as [A' AE].
      split; [rewrite <- AE; exact A'|].
      assert (D1' : driven (ap_step P) (aps ++ [ac_occupancy P (activity s)]) (appliances s0) (appliances s)) by (econstructor; eassumption).
      assert (D2' : driven (li_step P) (lis ++ [(ac_occupancy P (activity s), irr)]) (light s0) (light s)) by (econstructor; eassumption).
      split; [exact D1'|]. split; [exact D2'|]. split.
      { unfold both in *. destruct (heating s0), (heating m), (heating s); try contradiction; try exact I. econstructor; eassumption. }
      intros k b B.
      destruct (Nat.eq_dec k (length args)) as [->|NE].
      + assert (b = a). { unfold at_ in B. rewrite nth_error_app2 in B by lia. rewrite Nat.sub_diag in B. cbn in B. congruence. } subst b.
        exists irr, t, (activity s), (appliances s), (light s).
        split; [exact A'|].
        assert (W : chosen (external_irradiance a) (shown_by Cl Ac Ap Li He X P (cl_irradiance P) s0 (S (length args))) irr /\
                    chosen (external_temperature a) (shown_by Cl Ac Ap Li He X P (cl_temperature P) s0 (S (length args))) t).
        { rewrite Nat.add_1_r in C'. unfold both in C'. unfold weather in E2. unfold chosen.
          destruct (climate s0) as [c0|] eqn:Es0, (climate s) as [c1|]; try contradiction.
          - injection E2 as <- <-.
            destruct (external_irradiance a), (external_temperature a); (split; [first [reflexivity|eapply shown_ok; eassumption]|first [reflexivity|eapply shown_ok; eassumption]]).
          - destruct (external_irradiance a), (external_temperature a); try discriminate. injection E2 as <- <-. split; reflexivity. }
        destruct W as [W1 W2]. split; [exact W1|]. split; [exact W2|].
        rewrite <- L1 at 1. split; [apply at_snoc_r|]. rewrite <- L2 at 1. split; [apply at_snoc_r|].
        split; [rewrite firstn_all2; [exact D1'|rewrite app_length; cbn [length]; lia]|].
        split; [rewrite firstn_all2; [exact D2'|rewrite app_length; cbn [length]; lia]|].
        rewrite <- L3 at 1. apply at_snoc_r.
      + assert (KL : k < length args).
        { apply at_lt in B. rewrite app_length in B. cbn [length] in B. lia. }
        assert (B' : at_ args k b). { unfold at_ in *. rewrite nth_error_app1 in B by lia. exact B. }
        destruct (K k b B') as (irr' & t' & ac & ap & li & K1 & K2 & K3 & K4 & K5 & K6 & K7 & K8).
        exists irr', t', ac, ap, li. repeat (split; [first [assumption|apply at_snoc_l; assumption|rewrite firstn_snoc_le by lia; assumption]|]).
        apply at_snoc_l. exact K8.
  Qed.

  (** ** Getters *)

  Lemma power_ok : forall s, length (ap_power P (appliances s)) = n_hh s -> length (li_power P (light s)) = n_hh s ->
    (forall h, heating s = Some h -> length (he_power P h) = n_hh s) ->
    exists l, power_demand P s = Ok l /\
      is_sum3 (ap_power P (appliances s)) (li_power P (light s))
        (match heating s with Some h => he_power P h | None => repeat 0%Q (n_hh s) end) l.
  Proof.
    intros s H1 H2 H3. unfold power_demand. rewrite np_add_same by congruence. cbn [bind].
    assert (L : length (match heating s with Some h => he_power P h | None => repeat 0%Q (n_hh s) end) = n_hh s).
    { destruct (heating s) as [h|]; [apply H3; reflexivity|apply repeat_length]. }
    rewrite np_add_same by (rewrite map2_length; lia).
    eexists. split; [reflexivity|]. apply np_add_at; lia.
  Qed.
End Load.

(** ** Clients *)

Section Clients.
  Variables (S A : Type) (pre post : A -> nat -> S -> result S) (raw : S -> nat -> string -> result value)
    (is_cached : string -> bool).
  Hypothesis post_id : forall a c s, post a c s = Ok s.

  Definition fine (x : sim S) : Prop :=
    coherent raw x /\ match lg x with Some l => well_formed l | None => True end.

  Lemma exec_fine : forall ops x outs x', fine x -> exec pre post raw is_cached ops x = Ok (outs, x') ->
    fine x' /\ reaches S A (body pre post) (step_args ops) (ctr x) (st x) (ctr x') (st x').
  Proof.
    induction ops as [|[n i|a] ops IH]; intros x outs x' F H; cbn [exec] in H.
    - injection H as _ <-. split; [exact F|constructor].
    - apply bind_ok in H. destruct H as ([v y] & E & H). apply bind_ok in H. destruct H as (w & _ & H).
      apply bind_ok in H. destruct H as ([o z] & E2 & H). injection H as _ <-. cbn [fst snd] in *.
      destruct (call_frame _ _ _ _ _ _ _ E) as (F1 & F2 & F3).
      destruct (call_coherent _ _ _ _ _ _ _ (proj1 F) E) as (_ & C).
      assert (Fy : fine y) by (split; [exact C|rewrite F3; apply F]).
      destruct (IH _ _ _ Fy E2) as [G R]. rewrite F1, F2 in R. split; [exact G|exact R].
    - apply bind_ok in H. destruct H as (y & E & H).
      pose proof (step_coherent _ _ _ _ _ _ post_id _ _ _ E (proj2 F)) as C.
      assert (W : match lg y with Some l => well_formed l | None => True end).
      { destruct (lg x) as [l|] eqn:L.
        - destruct F as [_ F]. rewrite L in F.
          destruct (step_spec _ _ _ _ _ _ post_id _ _ _ _ L F E) as (_ & l' & L' & WF & _). rewrite L'. exact WF.
        - unfold step in E. apply bind_ok in E. destruct E as (s1 & _ & E). unfold visit in E. cbn [lg] in E. rewrite L in E. cbn [bind] in E.
          apply bind_ok in E. destruct E as (s2 & _ & E). injection E as <-. cbn. exact I. }
      destruct (IH _ _ _ (conj C W) H) as [G R]. split; [exact G|].
      destruct (step_frame _ _ _ _ _ _ _ _ _ E) as [E1 E2]. rewrite E1 in R. cbn [step_args]. econstructor; eassumption.
  Qed.
End Clients.

Lemma real_population_draws : forall n pdf d d', sample_population n pdf RealPopulation d = sample_population n pdf RealPopulation d'.
Proof. reflexivity. Qed.

Lemma counts_total : forall n pdf counts, sample_population n pdf RealPopulation [] = Ok counts -> total_nat counts = n.
Proof.
  intros n pdf counts H. rewrite (real_population_draws _ _ _ (repeat 0%Q n)) in H.
  eapply sample_population_total; [|exact H]. apply repeat_length.
Qed.

Lemma sum_nat_total : forall l, sum_nat l = total_nat l.
Proof. reflexivity. Qed.

Lemma instantiate_ok : forall T (a b : result T) x, instantiate a b = Ok x <->
  a = Ok x \/ (a = Err NotImplementedError /\ b = Ok x).
Proof.
  intros T a b x. unfold instantiate. split.
  - destruct a as [y|[]]; try discriminate; [auto|]. destruct b as [z|[]]; try discriminate. auto.
  - intros [->|[-> ->]]; reflexivity.
Qed.

Lemma instantiate_err : forall T (a b : result T) e, instantiate a b = Err e <->
  (a = Err e /\ e <> NotImplementedError) \/ (a = Err NotImplementedError /\ b = Err e).
Proof.
  intros T a b e. unfold instantiate. split.
  - destruct a as [y|[]]; try discriminate; try (intro H; injection H as <-; left; split; [reflexivity|discriminate]).
    destruct b as [z|[]]; try discriminate; intro H; injection H as <-; auto.
  - intros [[-> N]|[-> ->]]; destruct e; try reflexivity. congruence.
Qed.

Section Made.
  Variables (Cl Ac Ap Li He X : Type) (P : parts Cl Ac Ap Li He X) (M : makers Cl Ac Ap Li He).

  Lemma make_inv : forall n pdf ih ic t0 none lg x,
    make_load P M n pdf ih ic t0 none lg = Ok x ->
    match lg with Some l => well_formed l | None => True end ->
    exists k counts ac ap li, n = Some (Z.of_nat k) /\ 0 < k /\
      sample_population k pdf RealPopulation [] = Ok counts /\
      instantiate (mk_activity1 M counts) (mk_activity2 M (total_nat counts)) = Ok ac /\
      mk_appliances M counts (ac_occupancy P ac) = Ok ap /\
      mk_light M k = Ok li /\
      n_hh (st x) = k /\ activity (st x) = ac /\ appliances (st x) = ap /\ light (st x) = li /\
      (if ic then exists c, instantiate (mk_climate1 M) (mk_climate2 M) = Ok c /\ climate (st x) = Some c
       else climate (st x) = None) /\
      (if ih then exists h, heating (st x) = Some h /\
                  mk_heating M k (match climate (st x) with Some c => cl_temperature P c | None => t0 end) = Ok h
       else heating (st x) = None) /\
      ctr x = 0 /\ fine _ (load_raw P) x.
  Proof.
    intros n pdf ih ic t0 none lg x H W. unfold make_load in H.
    apply bind_ok in H. destruct H as (k & E1 & H).
    apply bind_ok in H. destruct H as (counts & E2 & H).
    apply bind_ok in H. destruct H as (ac & E3 & H).
    apply bind_ok in H. destruct H as (ap & E4 & H).
    apply bind_ok in H. destruct H as (cl & E5 & H).
    apply bind_ok in H. destruct H as (li & E6 & H).
    apply bind_ok in H. destruct H as (he & E7 & H).
    assert (Hn : n = Some (Z.of_nat k) /\ 0 < k).
    { unfold simulator_check in E1. destruct n as [z|]; [|discriminate]. destruct (Z.leb_spec z 0); [discriminate|].
      injection E1 as <-. split; [f_equal; lia|lia]. }
    destruct (initialize_frame _ _ _ _ _ _ _ _ _ _ H) as (_ & F1 & F2).
    cbn in F2. cbn in F1. assert (Es : st x = mkLoad k cl ac ap li he) by (inversion F2; reflexivity).
    exists k, counts, ac, ap, li.
    split; [apply Hn|]. split; [apply Hn|]. split; [exact E2|]. split; [exact E3|]. split; [exact E4|]. split; [exact E6|].
    rewrite Es. cbn [n_hh activity appliances light climate heating].
    repeat (split; [reflexivity|]).
    split. { destruct ic; [|injection E5 as <-; reflexivity]. apply bind_ok in E5. destruct E5 as (c' & E5 & E). injection E as <-. exists c'. auto. }
    split. { destruct ih; [|injection E7 as <-; reflexivity]. apply bind_ok in E7. destruct E7 as (h & E7 & E). injection E as <-. exists h. auto. }
    split; [exact F1|].
    destruct lg as [l|].
    - destruct (init_records _ _ _ _ _ _ (fun _ _ _ => eq_refl) _ _ _ _ _ (coherent_empty _ _ _ _ _) eq_refl W H)
        as (l' & L & WF & _ & _ & _ & C & _). split; [exact C|rewrite L; exact WF].
    - cbn in H. injection H as <-. split; [apply coherent_empty|exact I].
  Qed.
End Made.

(** ** The number of households through a run *)

Section Sizes.
  Variables (Cl Ac Ap Li He X : Type) (P : parts Cl Ac Ap Li He X) (M : makers Cl Ac Ap Li He).
  Variables (apn : nat -> Ap -> Prop) (lin : nat -> Li -> Prop) (hen : nat -> He -> Prop).
  Hypothesis Z : sized P M apn lin hen.

  Lemma driven_keeps : forall I T (step : I -> T -> result T) (Q : T -> Prop),
    (forall i s s', Q s -> step i s = Ok s' -> Q s') -> forall ins x y, driven step ins x y -> Q x -> Q y.
  Proof. intros I T step Q K ins x y H. induction H; auto. intro Hx. eapply K; [apply IHdriven; exact Hx|eassumption]. Qed.

  Lemma total_power : forall n pdf ih ic t0 none lg x ops outs y,
    make_load P M n pdf ih ic t0 none lg = Ok x ->
    match lg with Some l => well_formed l | None => True end ->
    exec (load_pre P) (@no_post _ _) (load_raw P) load_cached ops x = Ok (outs, y) ->
    exists l z, call (load_raw P) load_cached y "get_power_demand"%string = Ok (VS (SArr l), z) /\
      st z = st y /\ ctr z = ctr y /\
      n = Some (Z.of_nat (length l)) /\
      (heating (st y) = None <-> ih = false) /\
      is_sum3 (ap_power P (appliances (st y))) (li_power P (light (st y)))
        (match heating (st y) with Some h => he_power P h | None => repeat 0%Q (length l) end) l.
  Proof.
    intros n pdf ih ic t0 none lg x ops outs y H W E.
    destruct (make_inv _ _ _ _ _ _ P M _ _ _ _ _ _ _ _ H W) as (k & counts & ac & ap & li & -> & K & S & I1 & I2 & I3 & N & A1 & A2 & A3 & CC & HH & C0 & F).
    destruct (exec_fine _ _ _ _ _ _ (fun _ _ _ => eq_refl) _ _ _ _ F E) as [[Fy _] R].
    rewrite C0 in R. apply trajectory_ok in R.
    destruct R as (aps & lis & hes & _ & _ & _ & N' & _ & _ & D1 & D2 & D3 & _).
    assert (Q1 : apn k (appliances (st y))).
    { eapply driven_keeps; [intros i s s'; apply (sized_ap_step _ _ _ _ _ Z)|exact D1|]. rewrite A2, <- (counts_total _ _ _ S). eapply sized_ap_make; eassumption. }
    assert (Q2 : lin k (light (st y))).
    { eapply driven_keeps; [intros i s s'; apply (sized_li_step _ _ _ _ _ Z)|exact D2|]. rewrite A3. eapply sized_li_make; eassumption. }
    assert (Q3 : forall h, heating (st y) = Some h -> hen k h).
    { intros h Hh. rewrite Hh in D3. destruct ih.
      - destruct HH as (h0 & H0 & HM). rewrite H0 in D3. cbn in D3. eapply driven_keeps; [intros i s s'; apply (sized_he_step _ _ _ _ _ Z)|exact D3|]. eapply sized_he_make; eassumption.
      - rewrite HH in D3. contradiction. }
    assert (Q4 : heating (st y) = None <-> ih = false).
    { destruct ih; [destruct HH as (h0 & H0 & _)|]; rewrite ?H0, ?HH in D3; cbn in D3; destruct (heating (st y)); try contradiction; split; congruence. }
    destruct (power_ok _ _ _ _ _ _ P (st y)) as (l & PO & IS).
    { rewrite N', N. apply (sized_ap_power _ _ _ _ _ Z). exact Q1. }
    { rewrite N', N. apply (sized_li_power _ _ _ _ _ Z). exact Q2. }
    { intros h Hh. rewrite N', N. apply (sized_he_power _ _ _ _ _ Z). apply Q3. exact Hh. }
    assert (LL : length l = k). { rewrite <- (proj1 IS). apply (sized_ap_power _ _ _ _ _ Z). exact Q1. }
    assert (RAW : load_raw P (st y) (ctr y) "get_power_demand"%string = Ok (VS (SArr l))).
    { unfold load_raw. cbn [String.eqb Ascii.eqb Bool.eqb]. rewrite PO. reflexivity. }
    exists l. unfold call. cbn [load_cached negb String.eqb Ascii.eqb Bool.eqb].
    destruct (dget String.eqb (cache y) "get_power_demand"%string) as [v|] eqn:G.
    - pose proof (Fy _ _ G) as V. rewrite RAW in V. injection V as <-. exists y. split; [reflexivity|]. rewrite LL. rewrite N', N in IS. auto 8.
    - rewrite RAW. cbn [bind]. eexists. split; [reflexivity|]. rewrite LL. rewrite N', N in IS. cbn [st ctr]. auto 8.
  Qed.

  Lemma load_trajectory : forall n pdf ih ic t0 none lg x ops outs y,
    make_load P M n pdf ih ic t0 none lg = Ok x ->
    match lg with Some l => well_formed l | None => True end ->
    exec (load_pre P) (@no_post _ _) (load_raw P) load_cached ops x = Ok (outs, y) ->
    ctr y = length (step_args ops) /\ trajectory Cl Ac Ap Li He X P (step_args ops) (st x) (st y).
  Proof.
    intros n pdf ih ic t0 none lg x ops outs y H W E.
    destruct (make_inv _ _ _ _ _ _ P M _ _ _ _ _ _ _ _ H W) as (k & counts & ac & ap & li & _ & _ & _ & _ & _ & _ & _ & _ & _ & _ & _ & _ & C0 & F).
    destruct (exec_fine _ _ _ _ _ _ (fun _ _ _ => eq_refl) _ _ _ _ F E) as [_ R].
    rewrite C0 in R. split; [apply reaches_length in R; exact R|]. eapply trajectory_ok. exact R.
  Qed.
End Sizes.

Lemma last_cumsum : forall pdf, last (cumsum pdf) 0%Q == total pdf.
Proof.
  assert (G : forall pdf a d, last (cumsum_from a pdf) d == match pdf with [] => d | _ => a + total pdf end).
  { induction pdf as [|x pdf IH]; intros a d; [reflexivity|]. cbn [cumsum_from].
    destruct pdf as [|y pdf].
    - cbn. ring.
    - change (last ((a + x) :: cumsum_from (a + x) (y :: pdf)) d)%Q with (last (cumsum_from (a + x)%Q (y :: pdf)) d).
      rewrite IH. change (total (x :: y :: pdf)) with (x + total (y :: pdf))%Q. ring. }
  intro pdf. unfold cumsum. rewrite G. destruct pdf; [reflexivity|]. ring.
Qed.
