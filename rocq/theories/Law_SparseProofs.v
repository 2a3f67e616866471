(** * Proofs of the law of the sparse simulators. *)

From Coq Require Import List ZArith QArith Bool Arith Lia Lqa Sorted.
From Verif Require Import Prelude PreludeFacts SpecBase SpecBaseFacts Sampling_Spec Sampling_Proofs Sparse_Model Sparse_Spec Sparse_Properties
  Activity_Model Activity_Spec Law_Spec Law_Base Law_ChainProofs.
Import ListNotations.

(** Draw [r] leads to target [y] in a list of transitions. *)
Definition hop (row : list (Z * Q)) (r : Q) (y : Z) : Prop :=
  exists k, at_ (map fst row) k y /\ covers (map snd row) r k.

Lemma hop_fun : forall row r y y', nonneg (map snd row) -> hop row r y -> hop row r y' -> y = y'.
Proof.
  intros row r y y' Hn (k & H1 & H2) (k' & H3 & H4). rewrite (C21_outcome_unique _ _ _ _ Hn H2 H4) in H1. eapply at_fun; eauto.
Qed.

Lemma hop_eq : forall row r r' y, r == r' -> hop row r y -> hop row r' y.
Proof. intros row r r' y E (k & H1 & H2 & H3). exists k. split; [exact H1|]. split; [rewrite <- E; exact H2|rewrite <- E; exact H3]. Qed.

Lemma filter_positions : forall (row : list (Z * Q)) y, 
  total (map snd (filter (fun e => (fst e =? y)%Z) row)) ==
  total (map (entry (map snd row)) (filter (fun k => match nth_error (map fst row) k with Some z => (z =? y)%Z | None => false end) (seq 0 (length row)))).
Proof.
  intros row y. induction row as [|[z q] row IH]; [reflexivity|]. cbn [filter fst length seq map nth_error].
  assert (E : total (map (entry (q :: map snd row))
      (filter (fun k => match nth_error (z :: map fst row) k with Some z0 => (z0 =? y)%Z | None => false end) (seq 1 (length row)))) ==
    total (map (entry (map snd row)) (filter (fun k => match nth_error (map fst row) k with Some z0 => (z0 =? y)%Z | None => false end) (seq 0 (length row))))).
  { rewrite <- seq_shift. clear IH. induction (seq 0 (length row)) as [|k l IHl]; [reflexivity|]. cbn [map filter nth_error].
    destruct (nth_error (map fst row) k) as [z0|]; [destruct (z0 =? y)%Z|]; cbn [map]; rewrite ?total_cons, ?IHl; reflexivity. }
  destruct (z =? y)%Z; cbn [map snd]; rewrite ?total_cons, ?E, <- IH; reflexivity.
Qed.

Lemma prob_hop : forall row y, is_pdf (map snd row) ->
  has_probability 1 (fun us => exists u, us = [u] /\ hop row (1 - u) y) (total (map snd (filter (fun e => (fst e =? y)%Z) row))).
Proof.
  intros row y Hp.
  set (ks := filter (fun k => match nth_error (map fst row) k with Some z => (z =? y)%Z | None => false end) (seq 0 (length row))).
  assert (Hks : forall k, In k ks <-> at_ (map fst row) k y).
  { intros k. unfold ks, at_. rewrite filter_In, in_seq. destruct (nth_error (map fst row) k) as [z|] eqn:E.
    - assert (k < length row)%nat by (rewrite <- (map_length fst row); apply nth_error_Some; congruence).
      rewrite Z.eqb_eq. split; [intros [_ ->]; reflexivity|intros [= ->]; split; [lia|reflexivity]].
    - split; [intros [_ H]; discriminate|discriminate]. }
  eapply prob_ext.
  - apply (prob_some 1 nat ks (fun k us => exists u, us = [u] /\ covers (map snd row) (1 - u) k) (entry (map snd row))).
    + apply NoDup_filter, seq_NoDup.
    + intros k Hk. apply Hks in Hk. apply at_lt in Hk. rewrite map_length in Hk. rewrite <- (map_length snd row) in Hk.
      destruct (lt_at _ _ _ Hk) as [x Hx]. rewrite (entry_at _ _ _ Hx). assert (S1 := mass_step _ _ _ Hx).
      assert (0 <= x) by (destruct Hp as [Hn _]; eapply Hn; eauto).
      apply prob_ext with (P := fun us => exists u, us = [u] /\ covers (map snd row) (1 - u) k)
        (p := (1 - mass_before (map snd row) k) - (1 - mass_before (map snd row) (S k)));
        [apply prob_interval|reflexivity|rewrite S1; ring].
      * assert (M := mass_le _ (S k) Hp). lra.
      * lra.
      * assert (M := mass_nonneg _ k (proj1 Hp)). lra.
      * intros u Hu0 Hu1. unfold covers. split; [intros (v & [= <-] & H1 & H2); lra|].
        intros [H1 H2]. exists u. split; [reflexivity|lra].
    + intros us k k' _ _ _ (u & -> & H1) (u' & E & H2). injection E as <-. eapply C21_outcome_unique; [apply Hp| |]; eassumption.
  - intros us _. cbv beta. split.
    + intros (k & Hk & u & -> & H). exists u. split; [reflexivity|]. exists k. split; [apply Hks; exact Hk|exact H].
    + intros (u & -> & k & H1 & H2). exists k. split; [apply Hks; exact H1|]. exists u. auto.
  - rewrite (filter_positions row y). reflexivity.
Qed.

Section Sparse.
  Variables (p : tpm) (states : list Z).
  Hypothesis Hnt : n_times p <> 0%Z.
  Hypothesis Hpar : parallel p.
  Hypothesis Hord : forall t, ordered_by_origin p t.
  Hypothesis Hnd : NoDup states.
  Hypothesis Hrow : forall t s, In s states -> stochastic_row p (t mod n_times p) s.
  Hypothesis Hto : forall t s y, In s states -> In y (map fst (row_of p (t mod n_times p) s)) -> In y states.

  Definition rows (t x : Z) : list (Z * Q) := row_of p (t mod n_times p) x.

  Fixpoint travels (n : nat) (t x : Z) (us : list Q) (y : Z) : Prop :=
    match n with
    | O => x = y
    | S k => exists s, In s states /\ (exists u, firstn 1 us = [u] /\ hop (rows t x) (1 - u) s) /\ travels k (t + 1) s (skipn 1 us) y
    end.

  Lemma prob_travels : forall n t x y, In x states ->
    has_probability n (fun us => travels n t x us y) (sparse_law rows states n t x y).
  Proof.
    induction n as [|n IH]; intros t x y Hx.
    - cbn [travels sparse_law]. destruct (Z.eqb_spec x y) as [E|E]; [apply prob_always; auto|apply prob_never; auto].
    - cbn [travels sparse_law]. change (S n) with (1 + n)%nat.
      apply (prob_then 1 n Z states (fun s us => exists u, us = [u] /\ hop (rows t x) (1 - u) s) (fun s us => travels n (t + 1) s us y)).
      + exact Hnd.
      + intros s _. apply prob_hop. apply Hrow. exact Hx.
      + intros s Hs. apply IH. exact Hs.
      + intros us s s' _ _ _ (u & -> & H1) (u' & E & H2). injection E as <-. eapply hop_fun; [apply (Hrow t x Hx)| |]; eassumption.
  Qed.

  Lemma travels_fun : forall n t x us y y', In x states -> travels n t x us y -> travels n t x us y' -> y = y'.
  Proof.
    induction n as [|n IH]; intros t x us y y' Hx H H'; [cbn in *; congruence|].
    destruct H as (s & Hs & (u & E & Hh) & H). destruct H' as (s' & Hs' & (u' & E' & Hh') & H').
    rewrite E in E'. injection E' as <-. rewrite (hop_fun _ _ _ _ (proj1 (Hrow t x Hx)) Hh' Hh) in H'. exact (IH _ _ _ _ _ Hs H H').
  Qed.

  Definition sparse_unit (hist : list (nat -> Q)) : Prop := forall k u i, at_ hist k u -> 0 < u i /\ u i <= 1.

  Lemma travels_eq : forall n t x us us' y, length us = n -> eqQ_list us us' -> travels n t x us y -> travels n t x us' y.
  Proof.
    induction n as [|n IH]; intros t x us us' y Hl He H; [exact H|].
    destruct us as [|u us]; [discriminate|]. inversion He as [|? u' ? us2 E1 E2]; subst.
    destruct H as (s & Hs & (v & E & Hh) & H). cbn in E. injection E as <-. exists s. split; [exact Hs|].
    split; [exists u'; split; [reflexivity|eapply hop_eq; [|exact Hh]; rewrite E1; reflexivity]|].
    cbn [skipn] in *. eapply IH; [|exact E2|exact H]. cbn in Hl. lia.
  Qed.

  Lemma run_travels : forall inc nd fuel hist s, sparse_unit hist -> sp_tpm s = p -> (forall x, In x (sp_states s) -> In x states) ->
    exists s', sp_run false inc nd (S fuel) hist s = Ok s' /\ length (sp_states s') = length (sp_states s) /\
      sp_tpm s' = p /\ sp_ticks s' = (sp_ticks s + Z.of_nat (length hist))%Z /\
      forall i x y, at_ (sp_states s) i x -> at_ (sp_states s') i y ->
        travels (length hist) (sp_ticks s) x (map (fun u => 1 - u i) hist) y.
  Proof.
    intros inc nd fuel. induction hist as [|u hist IH]; intros s Hu Hp Hs.
    - exists s. split; [reflexivity|]. split; [reflexivity|]. split; [exact Hp|]. split; [cbn; lia|].
      intros i x y H1 H2. cbn. eapply at_fun; eauto.
    - cbn [sp_run]. unfold sp_step. cbn [bind].
      destruct (C21_own_row fuel p (sp_ticks s + 1 - 1) (sp_states s) (map u (seq 0 (length (sp_states s)))) Hnt Hpar (Hord _)
        (fun x Hx => Hrow _ x (Hs x Hx))) as (out & E & Hlen & Hout).
      + rewrite map_length, seq_length. reflexivity.
      + intros i r Hr. apply nth_error_In, in_map_iff in Hr as (k & <- & _). apply (Hu 0%nat u k eq_refl).
      + rewrite Hp, E. cbn [bind].
        set (s1 := mkSp (sp_tpm s) (sp_labels s) out (sp_activities s) (sp_ticks s + 1) (sp_time s)).
        assert (Hstep : forall i x y, at_ (sp_states s) i x -> at_ out i y -> hop (rows (sp_ticks s) x) (u i) y).
        { intros i x y Hx Hy. assert (Hi : at_ (map u (seq 0 (length (sp_states s)))) i (u i)).
          { unfold at_. rewrite nth_error_map. apply at_lt in Hx. rewrite (nth_error_nth' _ 0%nat) by (rewrite seq_length; exact Hx).
            rewrite seq_nth by exact Hx. reflexivity. }
          destruct (Hout i x (u i) Hx Hi) as (k & j & H1 & H2 & H3). rewrite (at_fun _ _ _ _ _ Hy H1).
          replace (sp_ticks s + 1 - 1)%Z with (sp_ticks s) in * by lia. exists k. split; assumption. }
        destruct (IH s1) as (s' & E' & L' & P' & T' & R').
        * intros k v i Hv. apply (Hu (S k) v i Hv).
        * exact Hp.
        * intros y Hy. cbn [s1 sp_states] in Hy. apply in_at in Hy as [i Hi]. assert (Hx := at_lt _ _ _ _ Hi). rewrite Hlen in Hx.
          destruct (lt_at _ _ _ Hx) as [x Hx']. destruct (Hstep i x y Hx' Hi) as (k & H1 & _).
          apply (Hto (sp_ticks s) x y); [apply Hs; eapply nth_error_In; exact Hx'|eapply nth_error_In; exact H1].
        * unfold s1 in E'. rewrite Hp in E'. exists s'. split; [exact E'|]. split; [rewrite L'; exact Hlen|]. split; [exact P'|].
          split; [rewrite T'; cbn [s1 sp_ticks length]; lia|].
          intros i x y Hx Hy. cbn [length map travels firstn skipn]. assert (Hi := at_lt _ _ _ _ Hx). rewrite <- Hlen in Hi.
          destruct (lt_at _ out _ Hi) as [z Hz]. exists z. split.
          -- destruct (Hstep i x z Hx Hz) as (k & H1 & _). apply (Hto (sp_ticks s) x z); [apply Hs; eapply nth_error_In; exact Hx|eapply nth_error_In; exact H1].
          -- split; [exists (1 - u i); split; [reflexivity|]|].
             ++ eapply hop_eq; [|exact (Hstep i x z Hx Hz)]. ring.
             ++ apply (R' i z y); assumption.
  Qed.

  Lemma sparse_law_one : forall inc nd fuel s i x n y, sp_tpm s = p -> (forall z, In z (sp_states s) -> In z states) -> at_ (sp_states s) i x ->
    has_probability n (fun us => forall hist, sparse_unit hist -> eqQ_list (map (fun u => 1 - u i) hist) us ->
      exists s', sp_run false inc nd (S fuel) hist s = Ok s' /\ at_ (sp_states s') i y)
    (sparse_law rows states n (sp_ticks s) x y).
  Proof.
    intros inc nd fuel s i x n y Hp Hs Hx. assert (Hxs : In x states) by (apply Hs; eapply nth_error_In; exact Hx).
    eapply prob_ext; [exact (prob_travels n (sp_ticks s) x y Hxs)| |reflexivity].
    assert (Lq : forall a b, eqQ_list a b -> length a = length b) by (intros a b H; induction H; cbn; congruence).
    intros us [Hlen Hus]. cbv beta. split.
    - intros Ht hist Hu He. destruct (run_travels inc nd fuel hist s Hu Hp Hs) as (s' & E & L & _ & _ & R). exists s'. split; [exact E|].
      assert (Hi := at_lt _ _ _ _ Hx). rewrite <- L in Hi. destruct (lt_at _ _ _ Hi) as [z Hz]. specialize (R i x z Hx Hz).
      assert (Lh : length hist = n) by (rewrite <- Hlen, <- (Lq _ _ He), map_length; reflexivity). rewrite Lh in R.
      assert (Hz' : travels n (sp_ticks s) x us z) by (eapply travels_eq; [|exact He|exact R]; rewrite map_length; exact Lh).
      rewrite (travels_fun n (sp_ticks s) x us y z Hxs Ht Hz'). exact Hz.
    - intros H. set (hist := map (fun u (_ : nat) => 1 - u) us).
      assert (Hu : sparse_unit hist).
      { intros k v j Hv. apply nth_error_In, in_map_iff in Hv as (w & <- & Hw). rewrite Forall_forall in Hus. destruct (Hus w Hw). lra. }
      assert (He : eqQ_list (map (fun u => 1 - u i) hist) us).
      { unfold hist. rewrite map_map. clear. induction us as [|u us IH]; cbn; constructor; [ring|exact IH]. }
      destruct (H hist Hu He) as (s' & E & Hy). destruct (run_travels inc nd fuel hist s Hu Hp Hs) as (s2 & E2 & _ & _ & _ & R).
      rewrite E in E2. injection E2 as <-. assert (Lh : length hist = n) by (unfold hist; rewrite map_length; exact Hlen).
      specialize (R i x y Hx Hy). rewrite Lh in R. eapply travels_eq; [|exact He|exact R]. rewrite map_length. exact Lh.
  Qed.

  (** ** All households together *)

  Lemma run_states_joint : forall inc nd fuel hist s ys, sparse_unit hist -> sp_tpm s = p -> (forall x, In x (sp_states s) -> In x states) ->
    length ys = length (sp_states s) ->
    ((exists s', sp_run false inc nd (S fuel) hist s = Ok s' /\ sp_states s' = ys) <->
     forall i x y, at_ (sp_states s) i x -> at_ ys i y -> travels (length hist) (sp_ticks s) x (map (fun u => 1 - u i) hist) y).
  Proof.
    intros inc nd fuel hist s ys Hu Hp Hs Hy. destruct (run_travels inc nd fuel hist s Hu Hp Hs) as (s' & E & L & _ & _ & R). split.
    - intros (s2 & E2 & <-). rewrite E in E2. injection E2 as <-. exact R.
    - intros H. exists s'. split; [exact E|]. apply same_entries. intros i.
      destruct (nth_error (sp_states s') i) as [z|] eqn:Ez.
      + assert (Hi := at_lt _ _ _ _ Ez). assert (Hi' := Hi). rewrite L in Hi'. destruct (lt_at _ _ _ Hi') as [x Hx].
        rewrite <- Hy in Hi'. destruct (lt_at _ _ _ Hi') as [y Hy'].
        rewrite (travels_fun _ _ _ _ z y (Hs x (nth_error_In _ _ Hx)) (R i x z Hx Ez) (H i x y Hx Hy')). symmetry. exact Hy'.
      + symmetry. apply nth_error_None. apply nth_error_None in Ez. lia.
  Qed.

  Lemma eqQ_list_sym : forall a b, eqQ_list a b -> eqQ_list b a.
  Proof. intros a b H. induction H; constructor; [symmetry; assumption|assumption]. Qed.

  Lemma eq_list_length : forall a b, eqQ_list a b -> length a = length b.
  Proof. intros a b H. induction H; cbn; congruence. Qed.

  Lemma sparse_law_joint : forall inc nd fuel s n ys, sp_tpm s = p -> (forall z, In z (sp_states s) -> In z states) -> length ys = length (sp_states s) ->
    has_probability (length ys * n) (fun us => forall hist, sparse_unit hist -> length hist = n ->
      (forall i, (i < length ys)%nat -> eqQ_list (map (fun u => 1 - u i) hist) (piece n i us)) ->
      exists s', sp_run false inc nd (S fuel) hist s = Ok s' /\ sp_states s' = ys)
    (product (map (fun xy => sparse_law rows states n (sp_ticks s) (fst xy) (snd xy)) (combine (sp_states s) ys))).
  Proof.
    intros inc nd fuel s n ys Hp Hs Hy.
    assert (At : forall i x y, at_ (combine (sp_states s) ys) i (x, y) <-> at_ (sp_states s) i x /\ at_ ys i y).
    { clear - Hy. unfold at_. revert Hy. generalize (sp_states s) as xs. intros xs. revert ys. induction xs as [|x xs IH]; intros [|y ys] Hy i a b; try discriminate.
      - destruct i; cbn; split; try discriminate; intros [H _]; discriminate.
      - destruct i as [|i]; cbn [combine nth_error]; [split; [intros H; injection H as <- <-; auto|intros [H1 H2]; congruence]|apply IH; cbn in Hy; lia]. }
    eapply prob_ext.
    - apply (prob_pieces n (length ys) (map (fun xy us => travels n (sp_ticks s) (fst xy) us (snd xy)) (combine (sp_states s) ys))
        (map (fun xy => sparse_law rows states n (sp_ticks s) (fst xy) (snd xy)) (combine (sp_states s) ys))); [rewrite map_length, combine_length; lia|].
      assert (Hin : forall x y, In (x, y) (combine (sp_states s) ys) -> In x states) by (intros x y H; apply Hs; eapply in_combine_l; exact H).
      clear - Hin Hrow Hto Hnd. induction (combine (sp_states s) ys) as [|[x y] l IH]; cbn [map fst snd]; constructor.
      + apply prob_travels. apply (Hin x y). left. reflexivity.
      + apply IH. intros a b H. apply (Hin a b). right. exact H.
    - intros us Hus. cbv beta. split.
      + intros H hist Hu Hlen He. apply run_states_joint; [exact Hu|exact Hp|exact Hs|exact Hy|]. intros i x y Hx Hy'. rewrite Hlen.
        assert (Hi := at_lt _ _ _ _ Hy').
        eapply travels_eq; [|apply eqQ_list_sym, (He i Hi)|].
        * rewrite <- (eq_list_length _ _ (He i Hi)), map_length. exact Hlen.
        * apply (H i (fun us => travels n (sp_ticks s) x us y)). unfold at_. rewrite nth_error_map.
          rewrite (proj2 (At i x y) (conj Hx Hy')). reflexivity.
      + intros H i P HP. unfold at_ in HP. rewrite nth_error_map in HP.
        destruct (nth_error (combine (sp_states s) ys) i) as [[x y]|] eqn:Exy; [|discriminate]. injection HP as <-. cbn [fst snd].
        apply At in Exy as [Hx Hy']. assert (Hi := at_lt _ _ _ _ Hy').
        set (hist := map (fun k j => 1 - nth k (piece n j us) 0) (seq 0 n)).
        assert (Hu : sparse_unit hist).
        { intros k v j Hv. apply nth_error_In, in_map_iff in Hv as (k' & <- & _). destruct (joint_unit n us k' (proj2 Hus) j) as [A B]. unfold joint_draw in A, B. lra. }
        assert (Lh : length hist = n) by (unfold hist; rewrite map_length, seq_length; reflexivity).
        assert (He : forall j, (j < length ys)%nat -> eqQ_list (map (fun u => 1 - u j) hist) (piece n j us)).
        { intros j Hj. unfold hist. rewrite map_map. destruct (draws_piece n (length ys) us j Hus Hj) as [Lp _].
          assert (E : piece n j us = map (fun k => nth k (piece n j us) 0) (seq 0 n)) by (rewrite <- (map_nth_seq (piece n j us) 0) at 1; rewrite Lp; reflexivity).
          refine (eq_ind_r (fun l => eqQ_list _ l) _ E). clear. induction (seq 0 n) as [|k l IH]; cbn; constructor; [ring|exact IH]. }
        assert (H' := proj1 (run_states_joint inc nd fuel hist s ys Hu Hp Hs Hy) (H hist Hu Lh He) i x y Hx Hy').
        rewrite Lh in H'. eapply travels_eq; [|exact (He i Hi)|exact H']. rewrite map_length. exact Lh.
    - reflexivity.
  Qed.
End Sparse.
