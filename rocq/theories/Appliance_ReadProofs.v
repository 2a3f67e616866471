(** * Proofs about the readings of the appliances (C194). *)

From Coq Require Import String List ZArith QArith Bool Arith Lia Lqa.
From Verif Require Import Prelude PreludeFacts SpecBase SpecBaseFacts Parse_Model Appliance_Model Appliance_Spec Appliance_ReadSpec.
From Verif Require Import Matrix_Proofs Appliance_Proofs Appliance_RunProofs.
Import ListNotations.

Open Scope Q_scope.

(** ** The errors of a computation *)

Definition errs {A} (e : py_error) (r : result A) : Prop := forall e', r = Err e' -> e' = e.

Lemma errs_ok : forall A e (x : A), errs e (Ok x).
Proof. intros A e x e' H. discriminate. Qed.

Lemma errs_err : forall A e, errs e (@Err A e).
Proof. intros A e e' H. congruence. Qed.

Lemma errs_bind : forall A B e (r : result A) (f : A -> result B), errs e r -> (forall x, r = Ok x -> errs e (f x)) -> errs e (bind r f).
Proof. intros A B e [x|e1] f H1 H2; simpl; [apply H2; reflexivity|]. intros e' [= ->]. apply H1. reflexivity. Qed.

Lemma errs_mapM : forall A B e (f : A -> result B) l, (forall x, In x l -> errs e (f x)) -> errs e (mapM f l).
Proof.
  intros A B e f l. induction l as [|a l IH]; intros H; simpl; [apply errs_ok|].
  apply errs_bind; [apply H; left; reflexivity|]. intros y _.
  apply errs_bind; [apply IH; intros; apply H; right; assumption|]. intros; apply errs_ok.
Qed.

Lemma errs_vget : forall A (l : list A) i, errs IndexError (vget l i).
Proof. intros A l i. unfold vget. destruct (nth_error l i); [apply errs_ok|apply errs_err]. Qed.

Lemma errs_mget : forall A (m : list (list A)) h j, errs IndexError (mget m h j).
Proof. intros A m h j. unfold mget. destruct (nth_error m h) as [r|]; [destruct (nth_error r j)|]; (apply errs_ok || apply errs_err). Qed.

Lemma errs_upd : forall A e (f : A -> result A) l i, e = IndexError -> (forall x, errs e (f x)) -> errs e (upd i f l).
Proof.
  intros A e f l. induction l as [|a l IH]; intros i -> H; simpl; [destruct i; apply errs_err|].
  destruct i as [|i]; (apply errs_bind; [auto|intros; apply errs_ok]).
Qed.

Lemma errs_set2 : forall A k (v : A) m, errs IndexError (set2 k v m).
Proof. intros A k v m. apply errs_upd; [reflexivity|]. intro x. apply errs_upd; [reflexivity|]. intro; apply errs_ok. Qed.

Lemma errs_mput : forall A kvs (m : list (list A)), errs IndexError (mput kvs m).
Proof.
  intros A kvs. induction kvs as [|[k v] kvs IH]; intro m; simpl; [apply errs_ok|].
  apply errs_bind; [apply errs_set2|]. intros m' _. apply IH.
Qed.

Lemma errs_start : forall s idx ds, errs IndexError (start_cycles s idx ds).
Proof.
  intros s idx ds. unfold start_cycles. apply errs_bind; [apply errs_mput|]. intros l _.
  apply errs_bind; [|intros; apply errs_bind; [apply errs_mput|intros; apply errs_ok]].
  apply errs_mapM. intros [[h j] d] _. apply errs_bind; [apply errs_vget|intros; apply errs_ok].
Qed.

Lemma errs_variable : forall s idx, errs IndexError (switch_on_variable_loads s idx).
Proof.
  intros s idx. unfold switch_on_variable_loads. apply errs_bind; [|intros; apply errs_start].
  apply errs_mapM. intros k _. apply errs_bind; [apply errs_mget|intros; apply errs_ok].
Qed.

Lemma errs_water_duration : forall a n, ~ ap_flow a == 0 -> errs IndexError (water_duration a n).
Proof.
  intros a n H. unfold water_duration. destruct (Qeq_bool (ap_flow a) 0) eqn:E; [apply Qeq_bool_iff in E; contradiction|apply errs_ok].
Qed.

Definition flowing (s : asim) : Prop := forall j a, at_ (s_apps s) j a -> ap_water a = true -> ~ ap_flow a == 0.

Lemma errs_sample : forall s vol k, flowing s -> errs IndexError (sample_duration s vol k).
Proof.
  intros s vol [h j] F. unfold sample_duration. apply errs_bind; [apply errs_vget|]. intros a Ha. apply vget_ok in Ha.
  apply errs_bind; [|intros; apply errs_bind; [apply errs_mget|intros; apply errs_ok]].
  destruct (ap_water a) eqn:W; [apply errs_water_duration; eapply F; eauto|apply errs_ok].
Qed.

Lemma errs_constant : forall s vol idx, flowing s -> errs IndexError (switch_on_constant_loads s vol idx).
Proof.
  intros s vol idx F. unfold switch_on_constant_loads. apply errs_bind; [|intros; apply errs_start].
  apply errs_mapM. intros k _. apply errs_sample. exact F.
Qed.

Lemma start_static : forall s idx ds s1, start_cycles s idx ds = Ok s1 -> s_apps s1 = s_apps s /\ s_load_dur s1 = s_load_dur s.
Proof.
  intros s idx ds s1 H. unfold start_cycles in H. destruct (mput (combine idx ds) (s_left s)); simpl in H; [|discriminate].
  destruct (mapM _ _); simpl in H; [|discriminate]. destruct (mput _ (s_refresh s)); simpl in H; [|discriminate].
  injection H as <-. split; reflexivity.
Qed.

Lemma errs_switch_on : forall s vol idx, flowing s -> errs IndexError (switch_on s vol idx).
Proof.
  intros s vol idx F. unfold switch_on. apply errs_bind; [apply errs_variable|]. intros s1 H. apply errs_constant.
  unfold switch_on_variable_loads in H. destruct (mapM _ _); simpl in H; [|discriminate].
  destruct (start_static _ _ _ _ H) as [E _]. unfold flowing. rewrite E. exact F.
Qed.

Lemma mapM_in : forall A B (f : A -> result B) l out x, mapM f l = Ok out -> In x l -> exists y, f x = Ok y.
Proof.
  intros A B f l out x H I. destruct (mapM_ok _ _ _ _ _ H) as [_ K]. apply In_nth_error in I. destruct I as [i I].
  destruct (K i x I) as (y & _ & E). eauto.
Qed.

Lemma switch_on_inside : forall s vol idx s' h j, switch_on s vol idx = Ok s' -> In (h, j) idx -> exists d, at2 (s_load_dur s) h j d.
Proof.
  intros s vol idx s' h j H I. unfold switch_on in H.
  destruct (switch_on_variable_loads s (filter (is_variable s) idx)) as [s1|] eqn:E; simpl in H; [|discriminate].
  unfold switch_on_variable_loads in E. destruct (mapM _ (filter (is_variable s) idx)) as [ds|] eqn:Em in E; simpl in E; [|discriminate].
  destruct (is_variable s (h, j)) eqn:V.
  - destruct (mapM_in _ _ _ _ _ (h, j) Em) as [y Hy]; [apply filter_In; auto|]. cbn [fst snd] in Hy.
    destruct (mget (s_load_dur s) h j) as [d|] eqn:Ed; simpl in Hy; [|discriminate]. apply mget_ok in Ed. eauto.
  - unfold switch_on_constant_loads in H. destruct (mapM (sample_duration s1 vol) _) as [cs|] eqn:Ec in H; simpl in H; [|discriminate].
    destruct (mapM_in _ _ _ _ _ (h, j) Ec) as [y Hy]; [apply filter_In; rewrite V; auto|].
    destruct (start_static _ _ _ _ E) as [_ Ed]. unfold sample_duration in Hy.
    destruct (vget (s_apps s1) j) as [a|]; simpl in Hy; [|discriminate].
    destruct (if ap_water a then _ else _) as [d0|]; simpl in Hy; [|discriminate].
    destruct (mget (s_load_dur s1) h j) as [d|] eqn:Eg; simpl in Hy; [|discriminate]. apply mget_ok in Eg. rewrite Ed in Eg. eauto.
Qed.

Lemma switch_on_outside : forall n s vol idx h j, simulates n s -> flowing s -> In (h, j) idx ->
  (n <= h \/ length (s_apps s) <= j)%nat -> switch_on s vol idx = Err IndexError.
Proof.
  intros n s vol idx h j Hs F I O. destruct (switch_on s vol idx) as [s'|e] eqn:E.
  - exfalso. destruct (switch_on_inside _ _ _ _ _ _ E I) as (d & row & R1 & R2).
    destruct Hs as (_ & _ & _ & (D1 & D2) & _). pose proof (at_lt _ _ _ _ R1). pose proof (at_lt _ _ _ _ R2).
    rewrite (D2 _ _ R1) in H0. lia.
  - f_equal. eapply errs_switch_on; [exact F|exact E].
Qed.

(** ** Positions in a profile *)

Lemma py_index_ok : forall A (l : list A) z i x, py_index (length l) z = Ok i -> at_ l i x -> python_at l z x.
Proof.
  intros A l z i x H X. unfold py_index in H. exists i. split; [exact X|].
  destruct (Z.leb_spec 0 z).
  - destruct (Z.ltb_spec z (Z.of_nat (length l))); [|discriminate]. injection H as <-. left. lia.
  - destruct (Z.leb_spec 0 (z + Z.of_nat (length l))); [|discriminate]. injection H as <-. right. lia.
Qed.

Lemma py_index_err : forall A (l : list A) z e, py_index (length l) z = Err e -> e = IndexError /\ python_outside l z.
Proof.
  intros A l z e H. unfold py_index in H. unfold python_outside. destruct (Z.leb_spec 0 z).
  - destruct (Z.ltb_spec z (Z.of_nat (length l))); [discriminate|]. injection H as <-. split; [reflexivity|lia].
  - destruct (Z.leb_spec 0 (z + Z.of_nat (length l))); [discriminate|]. injection H as <-. split; [reflexivity|lia].
Qed.

Lemma py_index_lt : forall n z i, py_index n z = Ok i -> (i < n)%nat.
Proof.
  intros n z i H. unfold py_index in H. destruct (Z.leb_spec 0 z).
  - destruct (Z.ltb_spec z (Z.of_nat n)); [|discriminate]. injection H as <-. lia.
  - destruct (Z.leb_spec 0 (z + Z.of_nat n)); [|discriminate]. injection H as <-. lia.
Qed.

Lemma load_value_at : forall s h j v q, sees s h j v -> load_value s h j (v_app v) (v_left v) = Ok q ->
  exists profiles profile z, profiles_of s v profiles /\ at_ profiles (v_id v) profile /\ elapsed v z /\ python_at profile z q.
Proof.
  intros s h j v q (V1 & V2 & V3 & V4 & V5 & V6) H. unfold load_value in H. unfold profiles_of.
  destruct (dget String.eqb (s_loads s) (ap_type (v_app v))) as [profiles|]; [|discriminate].
  apply mget_ok in V6. rewrite V6 in H. simpl in H. apply mget_ok in V5. rewrite V5 in H. simpl in H.
  destruct (vget profiles (v_id v)) as [profile|] eqn:Ep; simpl in H; [|discriminate]. apply vget_ok in Ep.
  fold (qn (v_dur v)) in H. destruct (py_index _ _) as [i|] eqn:Ei; simpl in H; [|discriminate]. apply vget_ok in H.
  exists profiles, profile, (trunc (qn (v_dur v) - v_left v)). split; [reflexivity|]. split; [exact Ep|].
  split; [apply trunc_int_part|]. eapply py_index_ok; eauto.
Qed.

Lemma load_value_err : forall s h j v e, sees s h j v -> load_value s h j (v_app v) (v_left v) = Err e ->
  (e = KeyError /\ forall profiles, ~ profiles_of s v profiles) \/
  (e = IndexError /\ exists profiles, profiles_of s v profiles /\
     ((length profiles <= v_id v)%nat \/
      exists profile z, at_ profiles (v_id v) profile /\ elapsed v z /\ python_outside profile z)).
Proof.
  intros s h j v e (V1 & V2 & V3 & V4 & V5 & V6) H. unfold load_value in H. unfold profiles_of.
  destruct (dget String.eqb (s_loads s) (ap_type (v_app v))) as [profiles|].
  2:{ injection H as <-. left. split; [reflexivity|]. discriminate. }
  right. apply mget_ok in V6. rewrite V6 in H. simpl in H. apply mget_ok in V5. rewrite V5 in H. simpl in H.
  destruct (vget profiles (v_id v)) as [profile|e1] eqn:Ep; simpl in H.
  2:{ injection H as <-. split; [eapply errs_vget; eauto|]. exists profiles. split; [reflexivity|]. left.
      unfold vget in Ep. destruct (nth_error profiles (v_id v)) eqn:En; [discriminate|]. apply nth_error_None in En. exact En. }
  apply vget_ok in Ep. fold (qn (v_dur v)) in H. destruct (py_index _ _) as [i|e1] eqn:Ei; simpl in H.
  - exfalso. apply py_index_lt in Ei. destruct (lt_at _ profile i Ei) as [x Hx]. apply vget_ok in Hx. rewrite Hx in H. discriminate.
  - injection H as <-. apply py_index_err in Ei. destruct Ei as [-> Ei]. split; [reflexivity|]. exists profiles.
    split; [reflexivity|]. right. exists profile, (trunc (qn (v_dur v) - v_left v)). split; [exact Ep|]. split; [apply trunc_int_part|exact Ei].
Qed.

(** ** Power *)

Lemma mapM_first : forall A B (f : A -> result B) l e, mapM f l = Err e -> exists x, In x l /\ f x = Err e.
Proof.
  intros A B f l. induction l as [|a l IH]; intros e H; simpl in H; [discriminate|].
  destruct (f a) as [y|e1] eqn:E; simpl in H.
  - destruct (mapM f l) as [ys|e2] eqn:Em; simpl in H; [discriminate|]. injection H as ->.
    destruct (IH _ eq_refl) as (x & I & X). exists x. split; [right; exact I|exact X].
  - injection H as ->. exists a. split; [left; reflexivity|exact E].
Qed.

Lemma power_err : forall n s e, simulates n s -> get_current_power_consumptions s = Err e ->
  exists h j v, sees s h j v /\ follows v /\ load_value s h j (v_app v) (v_left v) = Err e.
Proof.
  intros n s e Hs H. unfold get_current_power_consumptions, power_of in H.
  destruct (variable_loads_of (get_current_usage s) s) as [VL|e1] eqn:EV; simpl in H; [discriminate|]. injection H as ->.
  unfold variable_loads_of in EV. destruct (mapM_first _ _ _ _ _ EV) as (h & Ih & Eh). apply in_seq in Ih. clear EV.
  assert (Hn : (h < n)%nat). { destruct Hs as (_ & (L & _) & _). lia. }
  pose proof (usage_shape n s Hs) as [SU1 SU2].
  destruct (lt_at _ (get_current_usage s) h) as [us Hus]; [lia|]. apply vget_ok in Hus. rewrite Hus in Eh. simpl in Eh. apply vget_ok in Hus.
  destruct (mapM_first _ _ _ _ _ Eh) as (j & Ij & Ej). apply in_seq in Ij. clear Eh.
  destruct (simulates_sees n s h j Hs Hn ltac:(lia)) as [v Hv]. exists h, j, v. split; [exact Hv|].
  pose proof Hv as (V1 & V2 & V3 & V4 & V5 & V6). apply vget_ok in V1. rewrite V1 in Ej. simpl in Ej.
  destruct (lt_at _ us j) as [u Hu]; [rewrite (SU2 _ _ Hus); lia|].
  assert (U : at2 (get_current_usage s) h j u) by (exists us; auto).
  apply vget_ok in Hu. rewrite Hu in Ej. simpl in Ej. destruct (u && ap_variable (v_app v)) eqn:Eu; [|discriminate].
  apply andb_true_iff in Eu. destruct Eu as [-> Ev]. apply mget_ok in V3. rewrite V3 in Ej. simpl in Ej.
  apply (usage_true _ _ _ _ Hv) in U. destruct U as [Ow Le]. split; [repeat split; assumption|exact Ej].
Qed.

(** ** Water *)

Lemma water_at : forall s h j v, sees s h j v -> exists x, at2 (get_current_water_consumptions s) h j x /\
  (v_own v = true -> 0 < v_left v -> x == ap_flow (v_app v)) /\
  (v_own v = false \/ v_left v <= 0 -> x == 0).
Proof.
  intros s h j v Hv. pose proof Hv as (V1 & _).
  assert (U : at2 (get_current_usage s) h j (Qltb 0 (v_left v) && v_own v)) by (apply (usage_at _ _ _ _ _ Hv); reflexivity).
  eexists. split; [apply at2_mrow; eexists _, _; split; [exact U|split; [exact V1|reflexivity]]|].
  destruct (v_own v); destruct (Qltb 0 (v_left v)) eqn:El; simpl; [apply Qltb_lt in El|apply Qltb_ge in El| |]; split; intros.
  - lra.
  - destruct H; [discriminate|lra].
  - lra.
  - lra.
  - discriminate.
  - lra.
  - discriminate.
  - lra.
Qed.

Lemma water_shape : forall n s, simulates n s -> shaped n (length (s_apps s)) (get_current_water_consumptions s).
Proof. intros n s Hs. apply shaped_mrow; [apply usage_shape; exact Hs|reflexivity]. Qed.
