(** * Proofs about the law of the types and about external heating systems. *)

From Coq Require Import String List ZArith QArith Bool Arith Lia Lqa.
From Verif Require Import Prelude PreludeFacts SpecBase SpecBaseFacts Sampling_Spec Sampling_Model Sampling_Proofs Law_Spec Law_Base Law_ChainProofs Law_CountProofs
  Heat_Model Heat_Spec Heat_Proofs Fit_Model Fit_Spec Fit_Proofs Fit_FiveProofs.
Import ListNotations.

(** ** Number of households of a type *)

Definition of_type (p : list Q) (i : nat) (u : Q) : bool := match mc_one (cumsum p) u with Ok j => Nat.eqb j i | Err _ => false end.

Lemma of_type_iff : forall p i u, p <> [] -> nonneg p -> 0 <= u -> (of_type p i u = true <-> type_of p u i).
Proof.
  intros p i u Hne Hp Hu. unfold of_type. destruct (type_total p u Hne Hp Hu) as [j Hj].
  rewrite (proj2 (mc_one_type p (cumsum p) u j Hne Hp (running_sums_cumsum p) Hu) Hj). rewrite Nat.eqb_eq. split; [intros <-; exact Hj|].
  intros Hi. apply (type_fun p u j i Hne Hp Hu Hj Hi).
Qed.

Lemma prob_not_type : forall p i, p <> [] -> nonneg p -> has_probability 1 (fun us => exists u, us = [u] /\ ~ type_of p u i) (1 - share p i).
Proof.
  intros p i Hne Hp. unfold share.
  assert (M := mass_mono p i (S i) Hp (Nat.le_succ_diag_r i)).
  assert (N := cap_nonneg _ (mass_nonneg p i Hp)). assert (C := cap_mono _ _ M). assert (U := proj1 (cap_le (mass_before p (S i)))).
  assert (T1 := proj1 (cap_le (total p))).
  destruct (Nat.lt_ge_cases i (length p)) as [L|L].
  - destruct (Nat.eqb i 0) eqn:E.
    + apply Nat.eqb_eq in E. subst i. assert (H3 := mass_mono p 1 (length p) Hp L). rewrite mass_before_all in H3. apply cap_mono in H3 as H4.
      assert (Z0 : cap (mass_before p 0) == 0) by reflexivity.
      eapply prob_ext with (P := fun us => exists u, us = [u] /\ mass_before p 1 <= u /\ u < total p) (p := cap (total p) - cap (mass_before p 1)).
      * apply prob_interval; [lra|exact H4|exact T1|]. intros u H0 H1. rewrite (cap_iff _ u H1), (cap_le_iff _ u H1). split.
        -- intros (v & [= <-] & H). exact H.
        -- intros H. exists u. auto.
      * intros us Hus. split; intros (u & -> & H); exists u; (split; [reflexivity|]).
        -- intros (_ & [[_ H5]|[H5 _]]); lra.
        -- assert (Hu : 0 <= u /\ u < 1) by (destruct Hus as [_ Hus]; rewrite Forall_forall in Hus; apply Hus; left; reflexivity).
           destruct (Qlt_le_dec u (mass_before p 1)) as [A|A]; [exfalso; apply H; split; [exact L|]; left; split; [exact (proj1 Hu)|exact A]|].
           destruct (Qlt_le_dec u (total p)) as [B|B]; [auto|]. exfalso. apply H. split; [exact L|]. right. auto.
      * rewrite Z0. ring.
    + apply Nat.eqb_neq in E.
      eapply prob_ext; [apply (prob_outside (cap (mass_before p i)) (cap (mass_before p (S i)))); [exact N|exact C|exact U]| |ring].
      intros us Hus. split; intros (u & -> & H); exists u; (split; [reflexivity|]);
        assert (Hu : 0 <= u /\ u < 1) by (destruct Hus as [_ Hus]; rewrite Forall_forall in Hus; apply Hus; left; reflexivity);
        destruct Hu as [Hu0 Hu1].
      * intros (_ & [[A B]|[_ A]]); [|congruence]. apply (cap_le_iff _ u Hu1) in A. apply (cap_iff _ u Hu1) in B.
        assert (X := proj2 (inside1_iff (cap (mass_before p i), cap (mass_before p (S i))) u) (conj A B)). congruence.
      * apply not_true_is_false. intros X. apply inside1_iff in X. cbn [fst snd] in X. destruct X as [A B].
        apply H. split; [exact L|]. left. split; [apply (cap_le_iff _ u Hu1); exact A|apply (cap_iff _ u Hu1); exact B].
  - assert (E : mass_before p (S i) = mass_before p i) by (unfold mass_before; rewrite !firstn_all2 by lia; reflexivity).
    assert (E0 : Nat.eqb i 0 = false) by (apply Nat.eqb_neq; intros ->; destruct p; [congruence|cbn in L; lia]).
    rewrite E, E0. eapply prob_ext; [apply (prob_always 1 (fun us => exists u, us = [u] /\ ~ type_of p u i))|reflexivity|ring].
    intros us [Hl _]. destruct us as [|u [|]]; try discriminate. exists u. split; [reflexivity|]. intros [H _]. lia.
Qed.

Lemma filter_types : forall p i us gs, p <> [] -> nonneg p -> Forall (fun u => 0 <= u /\ u < 1) us -> Forall2 (type_of p) us gs ->
  length (filter (of_type p i) us) = count_occ Nat.eq_dec gs i.
Proof.
  intros p i us gs Hne Hp Hus H. induction H as [|u g us gs H HF IH]; [reflexivity|]. inversion Hus as [|? ? Hu Hus']; subst.
  assert (B := of_type_iff p i u Hne Hp (proj1 Hu)). cbn [filter count_occ]. destruct (Nat.eq_dec g i) as [->|D].
  - rewrite (proj2 B H). cbn [length]. rewrite IH by exact Hus'. reflexivity.
  - destruct (of_type p i u) eqn:E; [|apply IH; exact Hus']. exfalso. apply D. apply (type_fun p u g i Hne Hp (proj1 Hu) H). apply B. reflexivity.
Qed.

Lemma types_count : forall p i n k, p <> [] -> nonneg p ->
  has_probability n (fun us => forall gs, Forall2 (type_of p) us gs -> count_occ Nat.eq_dec gs i = k) (binomial n k (share p i)).
Proof.
  intros p i n k Hne Hp. eapply prob_ext; [refine (prob_count (of_type p i) (share p i) _ _ n k)| |reflexivity].
  - eapply prob_ext; [exact (prob_type p i Hne Hp)| |reflexivity]. intros us [_ Hus]. split; intros (u & -> & H); exists u; (split; [reflexivity|]);
      rewrite Forall_forall in Hus; specialize (Hus u (or_introl eq_refl)); apply (of_type_iff p i u Hne Hp (proj1 Hus)); exact H.
  - eapply prob_ext; [exact (prob_not_type p i Hne Hp)| |reflexivity]. intros us [_ Hus]. split; intros (u & -> & H); exists u; (split; [reflexivity|]);
      rewrite Forall_forall in Hus; specialize (Hus u (or_introl eq_refl)); assert (B := of_type_iff p i u Hne Hp (proj1 Hus)).
    + destruct (of_type p i u); [|reflexivity]. exfalso. apply H. apply B. reflexivity.
    + intros T. apply B in T. congruence.
  - intros us [_ Hus]. destruct (types_total p us Hne Hp Hus) as [gs Hgs]. split.
    + intros <- gs' H. symmetry. apply filter_types; assumption.
    + intros H. rewrite (filter_types p i us gs Hne Hp Hus Hgs). apply H. exact Hgs.
Qed.

Lemma count_law : forall algo dt outside d n ph pw i k, complete_data d ph pw ->
  has_probability (6 * n) (fun us => exists f, five_construct algo dt outside d n us = Done f /\ count_occ Nat.eq_dec (y_types (f_system f)) i = k)
    (binomial n k (share (t_prob (e_systems d)) i)) /\
  has_probability (6 * n) (fun us => exists f, five_construct algo dt outside d n us = Done f /\ count_occ Nat.eq_dec (b_types (f_stock f)) i = k)
    (binomial n k (share (t_prob (e_buildings d)) i)).
Proof.
  intros algo dt outside d n ph pw i k Hd. pose proof Hd as ((E1 & P1 & _) & _ & _ & (E2 & P2 & _) & _).
  assert (F : forall us, draws (6 * n) us -> exists f, five_construct algo dt outside d n us = Done f /\
     Forall2 (type_of (t_prob (e_systems d))) (block n 0 us) (y_types (f_system f)) /\ Forall2 (type_of (t_prob (e_buildings d))) (block n 3 us) (b_types (f_stock f))).
  { intros us Hus. destruct (five_done algo dt outside d n us ph pw Hd Hus) as (f & y & s & rh & rw & vh & vw & Hf & Hy & Hs & _ & _ & _ & _ & E).
    exists f. split; [exact Hf|]. cbv zeta in E. rewrite E. cbn [f_system f_stock]. destruct (systems_done _ _ _ Hy) as (Ty & _). destruct (buildings_done _ _ _ Hs) as (Ts & _).
    split; [apply (proj1 (assign_types_iff _ _ _ (proj1 Hd) (proj2 (block_draws n us 0 Hus ltac:(lia)))) Ty)|].
    apply (proj1 (assign_types_iff _ _ _ (proj1 (proj2 (proj2 (proj2 Hd)))) (proj2 (block_draws n us 3 Hus ltac:(lia)))) Ts). }
  assert (W : has_probability (n + 0) (fun _ => True) 1) by (apply prob_always; auto).
  assert (W1 : has_probability n (fun _ => True) 1) by (apply prob_always; auto).
  assert (T1 := types_count (t_prob (e_systems d)) i n k E1 P1). assert (T2 := types_count (t_prob (e_buildings d)) i n k E2 P2).
  change (6 * n)%nat with (n + (n + (n + (n + (n + (n + 0))))))%nat. split.
  - eapply prob_ext; [exact (prob_both _ _ _ _ _ _ T1 (prob_both _ _ _ _ _ _ W1 (prob_both _ _ _ _ _ _ W1 (prob_both _ _ _ _ _ _ W1 (prob_both _ _ _ _ _ _ W1 W)))))| |ring].
    intros us Hus. destruct (F us Hus) as (f & Hf & A & _). cbv beta. split.
    + intros [H _]. exists f. split; [exact Hf|]. apply H. unfold block in A. rewrite Nat.mul_0_r in A. exact A.
    + intros (f' & Hf' & H). rewrite Hf in Hf'. injection Hf' as <-. split; [|tauto]. intros gs Hgs.
      destruct (block_draws n us 0 Hus ltac:(lia)) as [_ D]. unfold block in A, D. rewrite Nat.mul_0_r in A, D. cbn [skipn] in A, D.
      rewrite (types_fun _ _ _ _ E1 P1 D Hgs A). exact H.
  - eapply prob_ext; [exact (prob_both _ _ _ _ _ _ W1 (prob_both _ _ _ _ _ _ W1 (prob_both _ _ _ _ _ _ W1 (prob_both _ _ _ _ _ _ T2 (prob_both _ _ _ _ _ _ W1 W)))))| |ring].
    intros us Hus. destruct (F us Hus) as (f & Hf & _ & A). destruct (block_draws n us 3 Hus ltac:(lia)) as [_ D].
    assert (X : firstn n (skipn n (skipn n (skipn n us))) = block n 3 us) by (unfold block; rewrite !skip_skip; f_equal; f_equal; lia).
    cbv beta. rewrite X. split.
    + intros (_ & _ & _ & H & _). exists f. split; [exact Hf|]. apply H. exact A.
    + intros (f' & Hf' & H). rewrite Hf in Hf'. injection Hf' as <-. split; [tauto|]. split; [tauto|]. split; [tauto|]. split; [|tauto]. intros gs Hgs.
      rewrite (types_fun _ _ _ _ E2 P2 D Hgs A). exact H.
Qed.

(** ** Rounding of the probabilities *)

Lemma cap_id : forall x, x <= 1 -> cap x == x.
Proof. intros x H. unfold cap. destruct (Qle_bool 1 x) eqn:E; [apply Qle_bool_iff in E; lra|reflexivity]. Qed.

Lemma mass_entry : forall p i, mass_before p (S i) == mass_before p i + entry p i.
Proof.
  intros p i. destruct (nth_error p i) as [x|] eqn:E.
  - rewrite (mass_step p i x E), (entry_at p i x E). reflexivity.
  - apply nth_error_None in E. rewrite (entry_out p i E). unfold mass_before. rewrite !firstn_all2 by lia. ring.
Qed.

Lemma share_below : forall p i, nonneg p -> total p <= 1 -> share p i == entry p i + (if Nat.eqb i 0 then 1 - total p else 0).
Proof.
  intros p i Hp Ht. unfold share.
  assert (M : forall j, mass_before p j <= 1).
  { intros j. destruct (Nat.le_ge_cases j (length p)) as [L|L].
    - assert (H := mass_mono p j (length p) Hp L). rewrite mass_before_all in H. lra.
    - unfold mass_before. rewrite firstn_all2 by lia. exact Ht. }
  destruct (Nat.eqb i 0); rewrite !cap_id by (apply M || exact Ht); rewrite mass_entry; ring.
Qed.

Lemma type_nonzero : forall p u i x, at_ p i x -> x == 0 -> u < 1 -> i <> 0%nat \/ 1 <= total p -> ~ type_of p u i.
Proof.
  intros p u i x Hx H0 Hu Hc [_ [[A B]|[A B]]].
  - rewrite (mass_step p i x Hx) in B. lra.
  - destruct Hc as [Hc|Hc]; [congruence|lra].
Qed.

(** ** External heating systems *)

Lemma external_step : forall p x y new i, all_heat_given i -> same_but_total x y ->
  match five_step (fst (set_external new (p, x))) x i, five_step (HPar (p_dt p) (p_bands p) (p_building p) new) y i with
  | Ok a, Ok b => same_but_total a b /\ x_ext_sys a = true
  | Err e, Err e' => e = e'
  | _, _ => False
  end.
Proof.
  intros p x y new i (a & b & E1 & E2 & E3) (S1 & S2 & S3 & S4 & S5 & S6 & S7 & S8 & S9 & S10). unfold five_step, set_external.
  cbn [fst p_system p_dt p_bands p_building m_cyl m_combi]. rewrite E1, E2, E3, S1, S2, S3, S6, S9.
  assert (X : forall k q, external_outputs k q NoHeat (Some (Some a)) (Some (Some b)) = [("dhw", Some a); ("space_heating", Some b)]%string) by reflexivity.
  rewrite !X. destruct (thermostats_step _ _ _ _ _) as [[g s]|e]; [|reflexivity]. cbn [bind].
  destruct (demand_step _ _ _ _ _ _ _ _ _) as [[q al]|e]; [|reflexivity]. cbn [bind].
  cbn [set_outputs set_output fst snd String.eqb Ascii.eqb Bool.eqb bind assign_external is_nan]. 
  unfold building_step. cbn [o_sh o_dhw]. rewrite ?S10.
  destruct (i_cyl i) as [v|]; (split; [|reflexivity]); unfold same_but_total; cbn; repeat split; auto.
Qed.

Lemma external_run : forall l p x y new, Forall all_heat_given l -> same_but_total x y ->
  match five_run (fst (set_external new (p, x))) x l, five_run (HPar (p_dt p) (p_bands p) (p_building p) new) y l with
  | Ok a, Ok b => same_but_total a b
  | Err e, Err e' => e = e'
  | _, _ => False
  end.
Proof.
  induction l as [|i l IH]; intros p x y new Hl HS; [exact HS|]. inversion Hl as [|? ? Hi Hl']; subst. cbn [five_run].
  pose proof (external_step p x y new i Hi HS) as H. destruct (five_step _ x i) as [a|e]; destruct (five_step _ y i) as [b|e']; cbn [bind]; try contradiction; [|exact H].
  apply (IH p a b new Hl' (proj1 H)).
Qed.

Lemma external_power : forall l v h p x, five_power l = Ok v -> at_ l h (p, x) -> x_ext_sys x = true -> at_ v h (Some 0).
Proof.
  intros l v h p x H Hat Hx. unfold five_power in H. destruct (system_power _) as [w|] eqn:E; [|discriminate]. cbn in H. injection H as <-.
  unfold at_ in *. rewrite map2_nth, Hat. assert (L := system_power_eq _ _ E).
  assert (Lw : length w = length l) by (rewrite L, map_length, map_length; reflexivity).
  destruct (nth_error w h) as [e|] eqn:F; [cbn; rewrite Hx; reflexivity|]. apply nth_error_None in F.
  assert (h < length l)%nat by (apply nth_error_Some; congruence). lia.
Qed.
