(** * C149-C154: the data of the CREST spreadsheet. *)

From Coq Require Import String List ZArith QArith Bool Arith Lia Lqa.
From Verif Require Import Prelude PreludeFacts SpecBase SpecBaseFacts Sampling_Model Sampling_Spec Sampling_Proofs
  Subgroup_Model Appliance_Model OwnDict_Spec Appliance_Spec Crest_Model Crest_Spec Crest_TpmProofs Crest_OwnProofs Crest_Proofs.
Import ListNotations.
Open Scope string_scope.
Open Scope Q_scope.

(** ** C149: transition matrices and starting states *)

Lemma value_eq : forall v w, value_eqb v (VInts w) = true <-> v = VInts w.
Proof.
  intros [z|l] w; cbn [value_eqb].
  - split; discriminate.
  - destruct (list_eq_dec Z.eq_dec l w) as [->|N].
    + split; reflexivity.
    + split; [discriminate|]. intro E. injection E as ->. contradiction.
Qed.

Lemma check_spec : forall sg, (exists n day, crest_subgroup sg n day) <-> check_crest_subgroup sg = Ok tt.
Proof.
  intro sg. unfold check_crest_subgroup, crest_subgroup, has_value, get. split.
  - intros (n & day & Hn & H1 & H2). rewrite H1.
    assert (M : existsb (Z.eqb (Z.of_nat n)) [1; 2; 3; 4; 5; 6]%Z = true).
    { apply existsb_exists. exists (Z.of_nat n). split; [|apply Z.eqb_refl].
      destruct n as [|[|[|[|[|[|[|n]]]]]]]; try lia; cbn; tauto. }
    destruct H2 as [[_ ->]|[_ ->]]; cbn [value_eqb week week_end weekdays weekend]; rewrite M; reflexivity.
  - destruct (dget String.eqb sg "n_residents") as [v|] eqn:Ev; [|discriminate]. destruct (dget String.eqb sg "weekday") as [w|] eqn:Ew; [|discriminate].
    destruct (value_eqb w week) eqn:E1; [apply value_eq in E1|destruct (value_eqb w week_end) eqn:E2; [apply value_eq in E2|discriminate]];
      cbn [negb andb]; (destruct v as [z|]; [|discriminate]); (destruct (existsb (Z.eqb z) [1; 2; 3; 4; 5; 6]%Z) eqn:Ez; [|discriminate]); intros _;
      apply existsb_exists in Ez as (z' & I & Ez); apply Z.eqb_eq in Ez; subst z'; exists (Z.to_nat z).
    + exists "d". cbn in I. split; [lia|]. split; [rewrite Z2Nat.id by lia; reflexivity|]. left. rewrite E1. auto.
    + exists "e". cbn in I. split; [lia|]. split; [rewrite Z2Nat.id by lia; reflexivity|]. right. rewrite E2. auto.
Qed.

Lemma check_err : forall sg e, check_crest_subgroup sg = Err e -> e = ValueError.
Proof.
  intros sg e H. unfold check_crest_subgroup in H.
  destruct (get sg "n_residents") as [v|]; [|congruence]. destruct (get sg "weekday") as [w|]; [|congruence].
  destruct (negb (value_eqb w week) && negb (value_eqb w week_end)); [congruence|]. destruct v as [z|]; [|congruence].
  destruct (existsb (Z.eqb z) [1; 2; 3; 4; 5; 6]%Z); congruence.
Qed.

Lemma load_form : forall times wb sg n day, crest_subgroup sg n day ->
  load_tpm times wb sg =
    match wb_sheet wb ("tpm" ++ decimal n ++ "_w" ++ day) with
    | None => Err ValueError
    | Some sheet =>
        bind (reshape_tpm times ((n + 1) * (n + 1)) sheet) (fun tpms =>
        bind (rescale_3d ((n + 1) * (n + 1)) (map stay tpms)) (fun tpms =>
        match wb_start wb day n with
        | None => Err KeyError
        | Some column =>
            bind (mapM (take_at column) (start_mask n)) (fun start =>
            bind (mapM (take_at (wb_labels wb day)) (start_mask n)) (fun labels => Ok (tpms, labels, start)))
        end))
    end.
Proof.
  intros times wb sg n day H. unfold load_tpm. rewrite (proj1 (check_spec sg)) by eauto. cbn [bind].
  destruct H as (Hn & H1 & H2). unfold parse_tpm, day_type, subscript, get. rewrite H1.
  destruct H2 as [[-> ->]|[-> ->]]; cbn [bind value_eqb week week_end weekdays weekend]; unfold sheet_name; rewrite Nat2Z.id; reflexivity.
Qed.

(** Shape and rows of the matrices. *)
Theorem C149_matrices : forall times wb sg n day sheet tpms labels start, crest_subgroup sg n day ->
  wb_sheet wb ("tpm" ++ decimal n ++ "_w" ++ day) = Some sheet -> wide_sheet ((n + 1) * (n + 1)) sheet ->
  (forall r row, at_ sheet r row -> nonneg row) ->
  load_tpm times wb sg = Ok (tpms, labels, start) ->
  length tpms = times /\ forall t m, at_ tpms t m -> length m = ((n + 1) * (n + 1))%nat /\ forall i out, at_ m i out ->
    is_pdf out /\ exists row l, at_ sheet (t * ((n + 1) * (n + 1)) + i) row /\ numbers ((n + 1) * (n + 1)) row l /\ settles l i out.
Proof.
  intros times wb sg n day sheet tpms labels start H Hs W P E. rewrite (load_form times wb sg n day H), Hs in E.
  destruct (reshape_tpm times ((n + 1) * (n + 1)) sheet) as [a|] eqn:E1; [|discriminate]. cbn [bind] in E.
  destruct (rescale_3d ((n + 1) * (n + 1)) (map stay a)) as [out|] eqn:E2; [|discriminate]. cbn [bind] in E.
  destruct (wb_start wb day n) as [column|]; [|discriminate]. destruct (mapM (take_at column) (start_mask n)); [|discriminate]. cbn [bind] in E.
  destruct (mapM (take_at (wb_labels wb day)) (start_mask n)); [|discriminate]. injection E as <- _ _.
  destruct (tpm_rows times ((n + 1) * (n + 1)) sheet ltac:(lia) W P a out E1 E2) as [L R]. split; [exact L|].
  intros t m Hm. destruct (R t m Hm) as (_ & Lm & Hr). split; [exact Lm|exact Hr].
Qed.
Print Assumptions C149_matrices.

(** Starting distribution and labels: state [a*(n+1)+b] is the row [7a+b] of the
    spreadsheet, and its label is "ab" when the rows are labelled so. *)
Theorem C149_states : forall times wb sg n day tpms labels start, crest_subgroup sg n day ->
  load_tpm times wb sg = Ok (tpms, labels, start) -> exists column, wb_start wb day n = Some column /\
  length start = ((n + 1) * (n + 1))%nat /\ length labels = ((n + 1) * (n + 1))%nat /\
  (forall i a b, is_state n i a b -> exists p lab, at_ start i p /\ at_ column (7 * a + b) p /\ at_ labels i lab /\ at_ (wb_labels wb day) (7 * a + b) lab) /\
  ((forall a b lab, (a <= 6)%nat -> (b <= 6)%nat -> at_ (wb_labels wb day) (7 * a + b) lab -> lab = Z.of_nat (10 * a + b)) ->
    forall i a b, is_state n i a b -> at_ labels i (Z.of_nat (10 * a + b))) /\
  ((forall k p, at_ column k p -> (forall a b, (a <= n)%nat -> (b <= n)%nat -> k <> (7 * a + b)%nat) -> p == 0) -> total start == total column).
Proof.
  intros times wb sg n day tpms labels start H E. rewrite (load_form times wb sg n day H) in E.
  destruct (wb_sheet wb ("tpm" ++ decimal n ++ "_w" ++ day)) as [sheet|]; [|discriminate].
  destruct (reshape_tpm times ((n + 1) * (n + 1)) sheet) as [a|] eqn:E1; [|discriminate]. cbn [bind] in E.
  destruct (rescale_3d ((n + 1) * (n + 1)) (map stay a)) as [out|] eqn:E2; [|discriminate]. cbn [bind] in E.
  destruct (wb_start wb day n) as [column|]; [|discriminate]. destruct (mapM (take_at column) (start_mask n)) as [st|] eqn:E3; [|discriminate]. cbn [bind] in E.
  destruct (mapM (take_at (wb_labels wb day)) (start_mask n)) as [lb|] eqn:E4; [|discriminate]. injection E as _ <- <-.
  exists column. split; [reflexivity|]. destruct (pick_nth _ _ _ _ E3) as [L3 P3]. destruct (pick_nth _ _ _ _ E4) as [L4 P4].
  rewrite mask_length in L3, L4. split; [exact L3|]. split; [exact L4|]. split; [|split].
  - intros i x y S. destruct (P3 _ _ (mask_at _ _ _ _ S)) as (p & A1 & A2). destruct (P4 _ _ (mask_at _ _ _ _ S)) as (lab & B1 & B2).
    exists p, lab. auto.
  - intros HL i x y S. destruct (P4 _ _ (mask_at _ _ _ _ S)) as (lab & B1 & B2). destruct H as (Hn & _). destruct S as (S1 & S2 & S3).
    rewrite (HL x y lab ltac:(lia) ltac:(lia) B2) in B1. exact B1.
  - intro Z. apply (pick_total _ _ _ E3); [apply mask_nodup; destruct H; lia|]. intros k p Hp Hk. apply (Z k p Hp).
    intros x y Hx Hy ->. apply Hk. apply mask_mem. eauto.
Qed.
Print Assumptions C149_states.

(** A column of starting probabilities or of labels that ends before the state with
    everybody at home and active is refused. *)
Theorem C149_short : forall times wb sg n day sheet column, crest_subgroup sg n day ->
  wb_sheet wb ("tpm" ++ decimal n ++ "_w" ++ day) = Some sheet -> wide_sheet ((n + 1) * (n + 1)) sheet ->
  (forall r row, at_ sheet r row -> nonneg row) -> wb_start wb day n = Some column ->
  length sheet = (times * ((n + 1) * (n + 1)))%nat ->
  (forall r row l, at_ sheet r row -> numbers ((n + 1) * (n + 1)) row l -> total l == 0 \/ (9 # 10 < total l /\ total l < 11 # 10)) ->
  (length column <= 8 * n)%nat \/ (length (wb_labels wb day) <= 8 * n)%nat -> load_tpm times wb sg = Err IndexError.
Proof.
  intros times wb sg n day sheet column H Hs W P Hc Ls T Short. rewrite (load_form times wb sg n day H), Hs, Hc.
  assert (N : (0 < (n + 1) * (n + 1))%nat) by lia. pose proof (reshape_ok times _ sheet N W) as RO.
  destruct (reshape_tpm times ((n + 1) * (n + 1)) sheet) as [a|e] eqn:E1.
  2:{ exfalso. apply (proj2 RO Ls). unfold reshape_tpm in E1. destruct (Nat.eqb _ _); congruence. }
  cbn [bind].
  destruct (proj2 (tpm_accepted times _ sheet N W P a E1) T) as [out E2]. rewrite E2. cbn [bind].
  assert (I : In (8 * n)%nat (start_mask n)) by (apply mask_mem; exists n, n; lia).
  assert (F : forall A (l : list A), (length l <= 8 * n)%nat -> mapM (take_at l) (start_mask n) = Err IndexError).
  { intros A l L. revert I. generalize (start_mask n) as idx. induction idx as [|i idx IH]; intro I; [destruct I|]. cbn [mapM]. unfold take_at at 1.
    destruct (nth_error l i) as [x|] eqn:E; [|reflexivity]. cbn [bind]. destruct I as [->|I]; [|rewrite (IH I); reflexivity].
    apply nth_error_None in L. congruence. }
  destruct (mapM (take_at column) (start_mask n)) as [st|e] eqn:E3.
  - cbn [bind]. destruct Short as [S|S]; [rewrite (F _ _ S) in E3; discriminate|]. rewrite (F _ _ S). reflexivity.
  - cbn [bind]. f_equal. clear - E3. revert e E3. generalize (start_mask n) as idx. induction idx as [|i idx IH]; intros e E; [discriminate|]. cbn [mapM] in E.
    unfold take_at at 1 in E. destruct (nth_error column i); [|cbn [bind] in E; congruence]. cbn [bind] in E.
    destruct (mapM (take_at column) idx); [discriminate|]. cbn [bind] in E. injection E as <-. apply IH. reflexivity.
Qed.
Print Assumptions C149_short.

(** Sheets accepted. *)
Theorem C149_accepts : forall times wb sg n day sheet column, crest_subgroup sg n day ->
  wb_sheet wb ("tpm" ++ decimal n ++ "_w" ++ day) = Some sheet -> wide_sheet ((n + 1) * (n + 1)) sheet ->
  (forall r row, at_ sheet r row -> nonneg row) ->
  wb_start wb day n = Some column -> (49 <= length column)%nat -> (49 <= length (wb_labels wb day))%nat ->
  let accepted := length sheet = (times * ((n + 1) * (n + 1)))%nat /\
    forall r row l, at_ sheet r row -> numbers ((n + 1) * (n + 1)) row l -> total l == 0 \/ (9 # 10 < total l /\ total l < 11 # 10) in
  (accepted -> exists res, load_tpm times wb sg = Ok res) /\ (~ accepted -> load_tpm times wb sg = Err ValueError).
Proof.
  intros times wb sg n day sheet column H Hs W P Hc Lc Ll accepted. rewrite (load_form times wb sg n day H), Hs, Hc.
  assert (B : forall i, In i (start_mask n) -> (i < 49)%nat).
  { intros i Hi. apply mask_mem in Hi as (a & b & Ha & Hb & ->). destruct H as (Hn & _). lia. }
  destruct (proj1 (pick_ok _ column (start_mask n))) as [st Est]; [intros i Hi; specialize (B i Hi); lia|].
  destruct (proj1 (pick_ok _ (wb_labels wb day) (start_mask n))) as [lb Elb]; [intros i Hi; specialize (B i Hi); lia|].
  assert (N : (0 < (n + 1) * (n + 1))%nat) by lia. pose proof (reshape_ok times _ sheet N W) as RO.
  destruct (reshape_tpm times ((n + 1) * (n + 1)) sheet) as [a|e] eqn:E1; cbn [bind].
  - pose proof (tpm_accepted times _ sheet N W P a E1) as TA. assert (Ls : length sheet = (times * ((n + 1) * (n + 1)))%nat) by (apply RO; discriminate).
    destruct (rescale_3d ((n + 1) * (n + 1)) (map stay a)) as [out|e] eqn:E2; cbn [bind].
    + rewrite Est. cbn [bind]. rewrite Elb. cbn [bind]. split; [eauto|]. intro Na. exfalso. apply Na. split; [exact Ls|]. apply TA. eauto.
    + assert (e = ValueError) as ->.
      { unfold rescale_3d in E2. destruct (rescale_pdf_total (1 # 10) (concat (map stay a))) as [Er|[rows Er]]; rewrite Er in E2; cbn in E2; congruence. }
      split; [|reflexivity]. intros [_ A]. apply TA in A as [out A]. discriminate.
  - assert (e = ValueError) as ->.
    { unfold reshape_tpm in E1. destruct (Nat.eqb _ _); congruence. }
    split; [|reflexivity]. intros [A _]. apply RO in A. congruence.
Qed.
Print Assumptions C149_accepts.

(** Other subgroups. *)
Theorem C149_refused : forall times wb sg, ~ (exists n day, crest_subgroup sg n day) -> load_tpm times wb sg = Err ValueError.
Proof.
  intros times wb sg H. unfold load_tpm. destruct (check_crest_subgroup sg) as [[]|e] eqn:E; [|rewrite (check_err _ _ E); reflexivity].
  exfalso. apply H, check_spec, E.
Qed.
Print Assumptions C149_refused.

(** One resident, one time. *)
Definition example_book : workbook :=
  {| wb_sheet := fun s => if String.eqb s "tpm1_we" then Some [[0; 0; 1 # 2; 1 # 2; 0; 0]; [0; 1; 0; 0; 0; 0]; [0; 2; 1 # 4; 0; 3 # 4; 0]; [0; 3; 0; 0; 0; 19 # 20]] else None;
     wb_start := fun _ _ => Some (map (fun k => inject_Z (Z.of_nat k)) (seq 0 49));
     wb_labels := fun _ => map (fun k => Z.of_nat (10 * (k / 7) + k mod 7)) (seq 0 49) |}.
Example C149_case :
  let sg := [("n_residents", VInt 1); ("weekday", VInts [6; 7]%Z)] in
  match load_tpm 1 example_book sg with
  | Ok (tpms, labels, start) => (map (map (map Qred)) tpms, labels, start)
  | Err _ => ([], [], [])
  end = ([[[1 # 2; 1 # 2; 0; 0]; [0; 1; 0; 0]; [1 # 4; 0; 3 # 4; 0]; [0; 0; 0; 1]]], [0; 1; 10; 11]%Z, [0; 1; 7; 8]) /\
  load_tpm 1 example_book [("n_residents", VInt 7); ("weekday", VInts [6; 7]%Z)] = Err ValueError.
Proof. vm_compute. split; reflexivity. Qed.

(** ** C150: appliances *)

Lemma translate_spec : forall table l out, translate_1d table l = Ok out ->
  length out = length l /\ forall i x, at_ l i x -> exists y, at_ out i y /\ dget String.eqb table x = Some y.
Proof.
  intros table l out H. destruct (mapM_ok _ _ _ _ _ H) as [L M]. split; [exact L|]. intros i x Hx. destruct (M i x Hx) as (y & Y1 & Y2).
  exists y. split; [exact Y1|]. destruct (dget String.eqb table x); [congruence|discriminate].
Qed.

Lemma translate_ok : forall table l, ((forall x, In x l -> dget String.eqb table x <> None) -> exists out, translate_1d table l = Ok out) /\
  ((exists x, In x l /\ dget String.eqb table x = None) -> translate_1d table l = Err KeyError).
Proof.
  intros table. induction l as [|x l [A B]]; split; intro H.
  - eexists; reflexivity.
  - destruct H as (x & [] & _).
  - unfold translate_1d in *. cbn [mapM]. destruct (dget String.eqb table x) as [y|] eqn:E; [|exfalso; apply (H x (or_introl eq_refl) E)].
    cbn [bind]. destruct A as [out ->]; [intros z Hz; apply H; right; exact Hz|]. cbn. eauto.
  - unfold translate_1d in *. cbn [mapM]. destruct (dget String.eqb table x) as [y|] eqn:E; [|reflexivity]. cbn [bind].
    rewrite B; [reflexivity|]. destruct H as (z & [<-|Hz] & Ez); [congruence|eauto].
Qed.

Lemma at_map : forall A B (f : A -> B) l i x, at_ l i x -> at_ (map f l) i (f x).
Proof. intros A B f l i x H. unfold at_ in *. rewrite nth_error_map, H. reflexivity. Qed.

Lemma at_repeat : forall A (v : A) n i, (i < n)%nat -> at_ (repeat v n) i v.
Proof. intros A v. unfold at_. induction n as [|n IH]; intros [|i] H; try lia; cbn; [reflexivity|apply IH; lia]. Qed.

Lemma last4_at : forall A (l : list A) v i x, at_ l i x -> at_ (set_last4 l v) i (if (length l <=? i + 4)%nat then v else x).
Proof.
  intros A l v i x H. pose proof (at_lt _ _ _ _ H) as L. unfold set_last4, at_ in *. destruct (Nat.leb_spec (length l) (i + 4)).
  - rewrite nth_error_app2; rewrite firstn_length; [|lia]. apply at_repeat. lia.
  - rewrite <- (firstn_skipn (length l - 4) l) in H. rewrite nth_error_app1 in * by (rewrite firstn_length; lia). exact H.
Qed.

Lemma but4_at : forall A (l : list A) v i x, at_ l i x -> at_ (set_but4 l v) i (if (length l <=? i + 4)%nat then x else v).
Proof.
  intros A l v i x H. pose proof (at_lt _ _ _ _ H) as L. unfold set_but4, at_ in *. destruct (Nat.leb_spec (length l) (i + 4)).
  - rewrite nth_error_app2; rewrite repeat_length; [|lia]. rewrite <- (firstn_skipn (length l - 4) l) in H.
    rewrite nth_error_app2, firstn_length, Nat.min_l in H by (rewrite ?firstn_length; lia). exact H.
  - rewrite nth_error_app1 by (rewrite repeat_length; lia). apply at_repeat. lia.
Qed.

Lemma last4_length : forall A (l : list A) v, length (set_last4 l v) = length l.
Proof. intros A l v. unfold set_last4. rewrite List.app_length, firstn_length, repeat_length. lia. Qed.
Lemma but4_length : forall A (l : list A) v, length (set_but4 l v) = length l.
Proof. intros A l v. unfold set_but4. rewrite List.app_length, skipn_length, repeat_length. lia. Qed.

Lemma put_get : forall l i v j x, at_ l j x -> at_ (put l i v) j (if Nat.eqb j i then v else x).
Proof. unfold at_. induction l as [|y l IH]; intros [|i] v [|j] x H; try discriminate; cbn in *; auto. Qed.

Lemma back_ok : forall l k v, (k <= length l)%nat -> set_back l k v = Ok (put l (length l - k) v).
Proof. intros l k v H. unfold set_back. destruct (Nat.ltb_spec (length l) k); [lia|reflexivity]. Qed.
Lemma back_err : forall l k v, (length l < k)%nat -> set_back l k v = Err IndexError.
Proof. intros l k v H. unfold set_back. destruct (Nat.ltb_spec (length l) k); [reflexivity|lia]. Qed.

Definition lambdas (l : list Q) : list Q :=
  put (put (put (put l (length l - 1) (733 # 10)) (length l - 2) (257 # 10)) (length l - 3) (23 # 10)) (length l - 4) (23 # 10).

Lemma lambda_chain : forall l (K : list Q -> result app_dict),
  bind (set_back l 1 (733 # 10)) (fun l1 => bind (set_back l1 2 (257 # 10)) (fun l2 => bind (set_back l2 3 (23 # 10)) (fun l3 => bind (set_back l3 4 (23 # 10)) K))) =
  if (length l <? 4)%nat then Err IndexError else K (lambdas l).
Proof.
  intros l K. destruct (Nat.ltb_spec (length l) 4) as [H|H].
  - destruct (Nat.ltb_spec (length l) 1); [rewrite back_err by lia; reflexivity|]. rewrite back_ok by lia. cbn [bind].
    destruct (Nat.ltb_spec (length l) 2); [rewrite back_err by (rewrite put_length; lia); reflexivity|]. rewrite back_ok by (rewrite put_length; lia). cbn [bind].
    destruct (Nat.ltb_spec (length l) 3); [rewrite back_err by (rewrite !put_length; lia); reflexivity|]. rewrite back_ok by (rewrite !put_length; lia). cbn [bind].
    rewrite back_err by (rewrite !put_length; lia). reflexivity.
  - rewrite back_ok by lia. cbn [bind]. rewrite back_ok by (rewrite put_length; lia). cbn [bind].
    rewrite back_ok by (rewrite !put_length; lia). cbn [bind]. rewrite back_ok by (rewrite !put_length; lia). cbn [bind].
    rewrite !put_length. reflexivity.
Qed.

Lemma dict_form : forall rows, appliance_dict "v_2.2" rows =
  bind (translate_1d appliance_table (map r_name rows)) (fun types =>
  bind (translate_1d activity_table (map r_profile rows)) (fun activities =>
  if (length rows <? 4)%nat then Err IndexError else
    Ok {| a_name := map r_name rows; a_type := types; a_prob := map r_prob rows; a_activity := activities;
          a_switch_off := map (fun r => if String.eqb (r_profile r) "ACT_WASHDRESS" || String.eqb (r_profile r) "LEVEL" then false else true) rows;
          a_duration := map r_duration rows; a_delay := map r_delay rows; a_switch_on := map r_switch_on rows;
          a_elec := set_last4 (map r_power rows) 0; a_water := set_but4 (map r_power rows) 0; a_standby := map r_standby rows;
          a_factor := map (fun r => match r_factor r with Some f => f | None => 1 end) rows;
          a_number := length rows; a_lambda := lambdas (map (fun _ => 0) (set_but4 (map r_power rows) 0));
          a_uses_water := set_last4 (repeat false (length rows)) true |})).
Proof.
  intro rows. unfold appliance_dict. change (negb (String.eqb "v_2.2" "v_2.2")) with false. cbv iota.
  destruct (translate_1d appliance_table (map r_name rows)) as [types|]; [|reflexivity]. cbn [bind].
  destruct (translate_1d activity_table (map r_profile rows)) as [acts|]; [|reflexivity]. cbn [bind].
  rewrite lambda_chain. rewrite map_length, but4_length, map_length. reflexivity.
Qed.

(** The last four rows. *)
Definition is_water (rows : list app_row) (i : nat) : bool := (length rows <=? i + 4)%nat.

(** The columns of the dictionary, appliance by appliance. *)
Theorem C150_columns : forall rows d, appliance_dict "v_2.2" rows = Ok d ->
  a_number d = length rows /\ length (a_name d) = length rows /\ length (a_type d) = length rows /\ length (a_activity d) = length rows /\
  length (a_elec d) = length rows /\ length (a_water d) = length rows /\ length (a_lambda d) = length rows /\ length (a_uses_water d) = length rows /\
  forall i r, at_ rows i r ->
    at_ (a_name d) i (r_name r) /\ at_ (a_prob d) i (r_prob r) /\ at_ (a_duration d) i (r_duration r) /\ at_ (a_delay d) i (r_delay r) /\
    at_ (a_switch_on d) i (r_switch_on r) /\ at_ (a_standby d) i (r_standby r) /\
    (exists t, at_ (a_type d) i t /\ dget String.eqb appliance_table (r_name r) = Some t) /\
    (exists a, at_ (a_activity d) i a /\ dget String.eqb activity_table (r_profile r) = Some a) /\
    at_ (a_factor d) i (match r_factor r with Some f => f | None => 1 end) /\
    at_ (a_uses_water d) i (is_water rows i) /\
    at_ (a_elec d) i (if is_water rows i then 0 else r_power r) /\
    at_ (a_water d) i (if is_water rows i then r_power r else 0).
Proof.
  intros rows d H. rewrite dict_form in H.
  destruct (translate_1d appliance_table (map r_name rows)) as [types|] eqn:E1; [|discriminate]. cbn [bind] in H.
  destruct (translate_1d activity_table (map r_profile rows)) as [acts|] eqn:E2; [|discriminate]. cbn [bind] in H.
  destruct (length rows <? 4)%nat eqn:E4; [discriminate|]. injection H as <-. apply Nat.ltb_ge in E4.
  destruct (translate_spec _ _ _ E1) as [L1 T1]. destruct (translate_spec _ _ _ E2) as [L2 T2]. rewrite map_length in L1, L2.
  cbn [a_name a_type a_prob a_activity a_switch_off a_duration a_delay a_switch_on a_elec a_water a_standby a_factor a_number a_lambda a_uses_water].
  split; [reflexivity|]. split; [apply map_length|]. split; [exact L1|]. split; [exact L2|].
  split; [rewrite last4_length; apply map_length|]. split; [rewrite but4_length; apply map_length|].
  split; [unfold lambdas; rewrite !put_length, map_length, but4_length; apply map_length|].
  split; [rewrite last4_length; apply repeat_length|].
  intros i r Hr. pose proof (at_lt _ _ _ _ Hr) as Li. repeat (split; [apply (at_map _ _ _ _ _ _ Hr)|]).
  split; [apply (T1 i), at_map, Hr|]. split; [apply (T2 i), at_map, Hr|]. split; [exact (at_map _ _ (fun r => match r_factor r with Some f => f | None => 1 end) _ _ _ Hr)|].
  unfold is_water. split; [|split].
  - pose proof (last4_at _ (repeat false (length rows)) true i false (at_repeat _ _ _ _ Li)) as X. rewrite repeat_length in X.
    destruct (length rows <=? i + 4)%nat; exact X.
  - pose proof (last4_at _ (map r_power rows) 0 i _ (at_map _ _ r_power _ _ _ Hr)) as X. rewrite map_length in X. exact X.
  - pose proof (but4_at _ (map r_power rows) 0 i _ (at_map _ _ r_power _ _ _ Hr)) as X. rewrite map_length in X. exact X.
Qed.
Print Assumptions C150_columns.

(** Litres of a use: from the end bath, shower, sink and basin. *)
Theorem C150_litres : forall rows d i x, appliance_dict "v_2.2" rows = Ok d -> at_ (a_lambda d) i x ->
  x = (if Nat.eqb (i + 1) (length rows) then 733 # 10 else if Nat.eqb (i + 2) (length rows) then 257 # 10
       else if Nat.eqb (i + 3) (length rows) then 23 # 10 else if Nat.eqb (i + 4) (length rows) then 23 # 10 else 0).
Proof.
  intros rows d i x H Hx. rewrite dict_form in H.
  destruct (translate_1d appliance_table (map r_name rows)) as [types|] eqn:E1; [|discriminate]. cbn [bind] in H.
  destruct (translate_1d activity_table (map r_profile rows)) as [acts|] eqn:E2; [|discriminate]. cbn [bind] in H.
  destruct (length rows <? 4)%nat eqn:E4; [discriminate|]. injection H as <-. apply Nat.ltb_ge in E4. cbn [a_lambda] in Hx.
  set (z := map (fun _ : Q => 0) (set_but4 (map r_power rows) 0)) in *.
  assert (Lz : length z = length rows) by (unfold z; rewrite map_length, but4_length; apply map_length).
  assert (Li : (i < length rows)%nat) by (rewrite <- Lz; pose proof (at_lt _ _ _ _ Hx) as Y; unfold lambdas in Y; rewrite !put_length in Y; exact Y).
  assert (Hz : at_ z i 0).
  { destruct (lt_at _ (set_but4 (map r_power rows) 0) i) as [y Hy]; [rewrite but4_length, map_length; exact Li|]. exact (at_map _ _ (fun _ => 0) _ _ _ Hy). }
  pose proof (put_get _ (length z - 4) (23 # 10) _ _ (put_get _ (length z - 3) (23 # 10) _ _ (put_get _ (length z - 2) (257 # 10) _ _ (put_get _ (length z - 1) (733 # 10) _ _ Hz)))) as X.
  fold (lambdas z) in X. rewrite (at_fun _ _ _ _ _ Hx X). rewrite Lz. clear -Li E4.
  destruct (Nat.eqb_spec i (length rows - 4)); [replace (Nat.eqb (i + 1) (length rows)) with false by (symmetry; apply Nat.eqb_neq; lia);
    replace (Nat.eqb (i + 2) (length rows)) with false by (symmetry; apply Nat.eqb_neq; lia); replace (Nat.eqb (i + 3) (length rows)) with false by (symmetry; apply Nat.eqb_neq; lia);
    replace (Nat.eqb (i + 4) (length rows)) with true by (symmetry; apply Nat.eqb_eq; lia); reflexivity|].
  destruct (Nat.eqb_spec i (length rows - 3)); [replace (Nat.eqb (i + 1) (length rows)) with false by (symmetry; apply Nat.eqb_neq; lia);
    replace (Nat.eqb (i + 2) (length rows)) with false by (symmetry; apply Nat.eqb_neq; lia); replace (Nat.eqb (i + 3) (length rows)) with true by (symmetry; apply Nat.eqb_eq; lia); reflexivity|].
  destruct (Nat.eqb_spec i (length rows - 2)); [replace (Nat.eqb (i + 1) (length rows)) with false by (symmetry; apply Nat.eqb_neq; lia);
    replace (Nat.eqb (i + 2) (length rows)) with true by (symmetry; apply Nat.eqb_eq; lia); reflexivity|].
  destruct (Nat.eqb_spec i (length rows - 1)); [replace (Nat.eqb (i + 1) (length rows)) with true by (symmetry; apply Nat.eqb_eq; lia); reflexivity|].
  replace (Nat.eqb (i + 1) (length rows)) with false by (symmetry; apply Nat.eqb_neq; lia).
  replace (Nat.eqb (i + 2) (length rows)) with false by (symmetry; apply Nat.eqb_neq; lia). replace (Nat.eqb (i + 3) (length rows)) with false by (symmetry; apply Nat.eqb_neq; lia).
  replace (Nat.eqb (i + 4) (length rows)) with false by (symmetry; apply Nat.eqb_neq; lia). reflexivity.
Qed.
Print Assumptions C150_litres.

(** Successful exactly for known names and activities and at least four rows. *)
Theorem C150_errors : forall version rows,
  (version <> "v_2.2" -> appliance_dict version rows = Err NotImplementedError) /\
  ((exists r, In r rows /\ (dget String.eqb appliance_table (r_name r) = None \/ dget String.eqb activity_table (r_profile r) = None)) ->
     appliance_dict "v_2.2" rows = Err KeyError) /\
  ((forall r, In r rows -> dget String.eqb appliance_table (r_name r) <> None /\ dget String.eqb activity_table (r_profile r) <> None) ->
     if (length rows <? 4)%nat then appliance_dict "v_2.2" rows = Err IndexError else exists d, appliance_dict "v_2.2" rows = Ok d).
Proof.
  intros version rows. split; [|split].
  - intro N. unfold appliance_dict. destruct (String.eqb_spec version "v_2.2"); [contradiction|reflexivity].
  - intros (r & Hr & H). rewrite dict_form. destruct (translate_ok appliance_table (map r_name rows)) as [A1 A2]. destruct (translate_ok activity_table (map r_profile rows)) as [B1 B2].
    destruct H as [H|H].
    + rewrite A2; [reflexivity|]. exists (r_name r). split; [apply in_map, Hr|exact H].
    + destruct (translate_1d appliance_table (map r_name rows)) as [types|e] eqn:E.
      * cbn [bind]. rewrite B2; [reflexivity|]. exists (r_profile r). split; [apply in_map, Hr|exact H].
      * cbn [bind]. clear -E. revert e E. induction (map r_name rows) as [|x l IH]; intros e E; [discriminate|]. unfold translate_1d in *. cbn [mapM] in E.
        destruct (dget String.eqb appliance_table x); [|cbn in E; congruence]. cbn [bind] in E.
        destruct (mapM _ l) as [o|e'] eqn:El; cbn [bind] in E; [discriminate|]. injection E as <-. exact (IH e' eq_refl).
  - intro H. rewrite dict_form. destruct (translate_ok appliance_table (map r_name rows)) as [A1 A2]. destruct (translate_ok activity_table (map r_profile rows)) as [B1 B2].
    destruct A1 as [types ->]; [intros x Hx; apply in_map_iff in Hx as (r & <- & Hr); exact (proj1 (H r Hr))|].
    destruct B1 as [acts ->]; [intros x Hx; apply in_map_iff in Hx as (r & <- & Hr); exact (proj2 (H r Hr))|]. cbn [bind].
    destruct (length rows <? 4)%nat; [reflexivity|eauto].
Qed.
Print Assumptions C150_errors.

(** Switched off with the occupants unless used for washing and dressing or at
    any time.  Dish washers are not exempt, see [C150_dish_washer_refuted]. *)
Theorem C150_switch_off_partial : forall rows d i r, appliance_dict "v_2.2" rows = Ok d -> at_ rows i r ->
  exists b, at_ (a_switch_off d) i b /\ (b = false <-> r_profile r = "ACT_WASHDRESS" \/ r_profile r = "LEVEL").
Proof.
  intros rows d i r H Hr. rewrite dict_form in H.
  destruct (translate_1d appliance_table (map r_name rows)) as [types|] eqn:E1; [|discriminate]. cbn [bind] in H.
  destruct (translate_1d activity_table (map r_profile rows)) as [acts|] eqn:E2; [|discriminate]. cbn [bind] in H.
  destruct (length rows <? 4)%nat eqn:E4; [discriminate|]. injection H as <-. cbn [a_switch_off].
  eexists. split; [apply at_map, Hr|]. destruct (String.eqb_spec (r_profile r) "ACT_WASHDRESS") as [->|N1]; cbn [orb]; [split; auto|].
  destruct (String.eqb_spec (r_profile r) "LEVEL") as [->|N2]; [split; auto|]. split; [discriminate|]. intros [|]; contradiction.
Qed.
Print Assumptions C150_switch_off_partial.

Definition app_line (name profile : string) : app_row :=
  {| r_name := name; r_prob := 1 # 2; r_profile := profile; r_duration := 60; r_delay := 0; r_switch_on := 1 # 100; r_power := 100; r_standby := 1; r_factor := None |}.

Theorem C150_dish_washer_refuted : exists rows d i r, appliance_dict "v_2.2" rows = Ok d /\ at_ rows i r /\
  r_name r = "DISH_WASHER" /\ at_ (a_switch_off d) i true.
Proof.
  exists [app_line "DISH_WASHER" "ACT_HOUSECLEAN"; app_line "BASIN" "LEVEL"; app_line "SINK" "LEVEL"; app_line "SHOWER" "LEVEL"; app_line "BATH" "LEVEL"].
  eexists. exists 0%nat. eexists. split; [vm_compute; reflexivity|]. split; [reflexivity|]. split; reflexivity.
Qed.
Print Assumptions C150_dish_washer_refuted.

Example C150_case :
  match appliance_dict "v_2.2" [app_line "TV2" "ACT_TV"; app_line "IRON" "ACT_IRON"; app_line "BASIN" "ACTIVE_OCC"; app_line "SINK" "LEVEL"; app_line "SHOWER" "ACT_WASHDRESS"; app_line "BATH" "LEVEL"] with
  | Ok d => (a_type d, a_switch_off d, a_elec d, a_uses_water d)
  | Err _ => ([], [], [], [])
  end = (["tv"; "iron"; "basin"; "sink"; "shower"; "bath"], [true; true; true; false; false; false], [100; 100; 0; 0; 0; 0], [false; false; true; true; true; true]).
Proof. vm_compute. reflexivity. Qed.

(** ** C151: ownership *)

(** The dictionary has one entry per appliance; reading it back gives the
    probabilities, whatever the defaults. *)
Theorem C151_round_trip : forall types probs defaults, no_numbered types -> length types = length probs ->
  exists d, crest_ownership types probs = Ok d /\ length d = length types /\ get_ownership_from_dict types defaults d = Ok probs.
Proof.
  intros types probs defaults N L. destruct (crest_round_trip types probs defaults N L) as (d & A & B & _ & C). eauto.
Qed.
Print Assumptions C151_round_trip.

(** The k-th appliance of a type is entered as the k-th copy. *)
Theorem C151_entries : forall types probs, no_numbered types -> length types = length probs ->
  exists d, crest_ownership types probs = Ok d /\ forall t k, In t types -> (1 <= k)%nat ->
    dget String.eqb d (copy t k) = nth_error (map snd (filter (fun x => String.eqb (fst x) t) (combine types probs))) (k - 1).
Proof.
  intros types probs N L. destruct (crest_round_trip types probs [] N L) as (d & A & _ & B & _). exists d. split; [exact A|exact B].
Qed.
Print Assumptions C151_entries.

(** The condition holds for all appliances of CREST. *)
Theorem C151_crest : forall rows d, appliance_dict "v_2.2" rows = Ok d -> exists o,
  crest_ownership (a_type d) (a_prob d) = Ok o /\ forall defaults, get_ownership_from_dict (a_type d) defaults o = Ok (a_prob d).
Proof.
  intros rows d H. rewrite dict_form in H.
  destruct (translate_1d appliance_table (map r_name rows)) as [types|] eqn:E1; [|discriminate]. cbn [bind] in H.
  destruct (translate_1d activity_table (map r_profile rows)) as [acts|] eqn:E2; [|discriminate]. cbn [bind] in H.
  destruct (length rows <? 4)%nat eqn:E4; [discriminate|]. injection H as <-. cbn [a_type a_prob].
  destruct (translate_spec _ _ _ E1) as [L1 _]. rewrite map_length in L1.
  destruct (crest_round_trip types (map r_prob rows) [] (table_types _ _ E1)) as (o & A & _); [rewrite map_length; exact L1|].
  exists o. split; [exact A|]. intro defaults.
  destruct (crest_round_trip types (map r_prob rows) defaults (table_types _ _ E1)) as (o' & A' & _ & _ & B); [rewrite map_length; exact L1|].
  rewrite A in A'. injection A' as <-. exact B.
Qed.
Print Assumptions C151_crest.

Theorem C151_condition_needed : exists types probs d out, crest_ownership types probs = Ok d /\
  get_ownership_from_dict types [] d = Ok out /\ length types = length probs /\ ~ eqQ_list out probs.
Proof.
  exists ["tv"; "tv"; "tv_2"], [1 # 2; 1 # 3; 1 # 4]. eexists. eexists. split; [vm_compute; reflexivity|]. split; [vm_compute; reflexivity|].
  split; [reflexivity|]. intro H. inversion H as [|? ? ? ? _ H1]; subst. inversion H1 as [|? ? ? ? _ H2]; subst. inversion H2 as [|? ? ? ? E _]; subst. discriminate E.
Qed.
Print Assumptions C151_condition_needed.

Example C151_case : crest_ownership ["tv"; "iron"; "tv"; "tv"] [1 # 2; 1 # 3; 1 # 4; 1 # 5] =
  Ok [("tv", 1 # 2); ("iron", 1 # 3); ("tv_2", 1 # 4); ("tv_3", 1 # 5)].
Proof. vm_compute. reflexivity. Qed.

(** ** C152: activity profiles *)

Lemma weekday_form : forall nt no na week_rows end_rows labels sg,
  activity_profiles nt no na week_rows end_rows labels sg =
  match dget String.eqb sg "weekday" with
  | None => Err KeyError
  | Some v => if value_eqb v week || value_eqb v week_end then
      bind (reshape3 nt no na (transposed_flat nt (if value_eqb v week then week_rows else end_rows))) (fun pdf =>
      bind (translate_1d activity_table (List.app labels ["LEVEL"; "ACTIVE_OCC"])) (fun names =>
      Ok (dict_of [] (combine names (map (profile_of (with_active (with_level pdf))) (seq 0 (na + 2)))))))
    else Err ValueError
  end.
Proof.
  intros. unfold activity_profiles, check_weekend_day_format, is_weekday, subscript, get. destruct (dget String.eqb sg "weekday") as [v|]; [|reflexivity].
  cbn [bind]. destruct (value_eqb v week || value_eqb v week_end); reflexivity.
Qed.

Lemma table_inj : forall a b x, dget String.eqb activity_table a = Some x -> dget String.eqb activity_table b = Some x -> a = b.
Proof.
  intros a b x Ha Hb. apply (PreludeFacts.dget_in _ _ _ String.eqb_eq) in Ha, Hb.
  assert (D : forallb (fun p => forallb (fun q => implb (String.eqb (snd p) (snd q)) (String.eqb (fst p) (fst q))) activity_table) activity_table = true) by (vm_compute; reflexivity).
  rewrite forallb_forall in D. specialize (D _ Ha). rewrite forallb_forall in D. specialize (D _ Hb). cbn [fst snd] in D.
  rewrite String.eqb_refl in D. apply String.eqb_eq, D.
Qed.

Lemma names_nodup : forall labels names, translate_1d activity_table labels = Ok names -> NoDup labels -> NoDup names.
Proof.
  intros labels names E N. destruct (translate_spec _ _ _ E) as [L T]. apply NoDup_nth_error. intros i j Hi Eq.
  rewrite NoDup_nth_error in N. rewrite L in Hi. apply N; [exact Hi|].
  assert (Hj : (j < length labels)%nat) by (rewrite <- L; apply nth_error_Some; rewrite <- Eq; apply nth_error_Some; rewrite L; exact Hi).
  destruct (lt_at _ labels i Hi) as [a Ha]. destruct (lt_at _ labels j Hj) as [b Hb].
  destruct (T i a Ha) as (x & X1 & X2). destruct (T j b Hb) as (y & Y1 & Y2). unfold at_ in *. rewrite X1, Y1 in Eq. injection Eq as <-.
  rewrite Ha, Hb, (table_inj _ _ _ X2 Y2). reflexivity.
Qed.

Lemma combine_fst : forall A B (l : list A) (m : list B), length l = length m -> map fst (combine l m) = l.
Proof. intros A B. induction l as [|n l IH]; intros [|p q] L; try discriminate; [reflexivity|]. cbn in *. f_equal. apply IH. lia. Qed.

(** [rows] is the table of the subgroup. *)
Definition table_of (sg : subgroup) (week_rows end_rows rows : list (list Q)) : Prop :=
  (has_value sg "weekday" weekdays /\ rows = week_rows) \/ (has_value sg "weekday" weekend /\ rows = end_rows).

Theorem C152_profiles : forall nt no na week_rows end_rows labels sg rows,
  table_of sg week_rows end_rows rows -> Forall (fun r => length r = nt) rows -> length rows = (no * na)%nat -> length labels = na ->
  NoDup (List.app labels ["LEVEL"; "ACTIVE_OCC"]) -> (forall lab, In lab labels -> dget String.eqb activity_table lab <> None) ->
  exists d, activity_profiles nt no na week_rows end_rows labels sg = Ok d /\
    (forall a lab name, at_ labels a lab -> dget String.eqb activity_table lab = Some name -> exists p, dget String.eqb d name = Some p /\
       forall t o x, at3 p t o x <-> (t < nt)%nat /\ (o < no)%nat /\ exists row, at_ rows (o * na + a) row /\ at_ row t x) /\
    (exists p, dget String.eqb d "level" = Some p /\ forall t o x, at3 p t o x <-> (t < nt)%nat /\ (o < no)%nat /\ x = 1) /\
    (exists p, dget String.eqb d "active_occupancy" = Some p /\
       forall t o x, at3 p t o x <-> (t < nt)%nat /\ (o < no)%nat /\ x = if Nat.eqb o 0 then 0 else 1) /\
    (forall k, dget String.eqb d k <> None -> k = "level" \/ k = "active_occupancy" \/ exists lab, In lab labels /\ dget String.eqb activity_table lab = Some k).
Proof.
  intros nt no na week_rows end_rows labels sg rows HT HR HL Hna N K. rewrite weekday_form.
  assert (W : exists v, dget String.eqb sg "weekday" = Some v /\ value_eqb v week || value_eqb v week_end = true /\ (if value_eqb v week then week_rows else end_rows) = rows).
  { destruct HT as [[H ->]|[H ->]]; (eexists; split; [exact H|]; split; reflexivity). }
  destruct W as (v & -> & -> & ->). destruct (reshape3_ok nt no na rows HR HL) as (pdf & E & _). rewrite E. cbn [bind].
  destruct (translate_ok activity_table (List.app labels ["LEVEL"; "ACTIVE_OCC"])) as [[names En] _].
  { intros x Hx. apply in_app_or in Hx as [Hx|Hx]; [exact (K x Hx)|]. destruct Hx as [<-|[<-|[]]]; discriminate. }
  rewrite En. cbn [bind]. eexists. split; [reflexivity|]. destruct (translate_spec _ _ _ En) as [Ln T]. rewrite List.app_length in Ln. cbn [length] in Ln. rewrite Hna in Ln.
  pose proof (names_nodup _ _ En N) as Nn. set (profiles := map (profile_of (with_active (with_level pdf))) (seq 0 (na + 2))).
  assert (Lp : length profiles = (na + 2)%nat) by (unfold profiles; rewrite map_length; apply seq_length).
  assert (Nc : map fst (combine names profiles) = names).
  { apply combine_fst. lia. }
  assert (G : forall a name, (a < na + 2)%nat -> at_ names a name -> dget String.eqb (dict_of [] (combine names profiles)) name = Some (profile_of (with_active (with_level pdf)) a)).
  { intros a name Ha Hn. apply (dict_of_nodup _ _ _ a); [rewrite Nc; exact Nn|]. apply at_combine; [exact Hn|]. unfold profiles. apply at_map. unfold at_. rewrite seq_nth_error by exact Ha. f_equal. }
  pose proof (profile_at nt no na rows HR HL pdf E) as P.
  assert (Q1 : at_ names na "level").
  { destruct (T na "LEVEL") as (x & X1 & X2); [unfold at_; rewrite nth_error_app2 by lia; rewrite Hna, Nat.sub_diag; reflexivity|]. vm_compute in X2. injection X2 as <-. exact X1. }
  assert (Q2 : at_ names (S na) "active_occupancy").
  { destruct (T (S na) "ACTIVE_OCC") as (x & X1 & X2); [unfold at_; rewrite nth_error_app2 by lia; rewrite Hna; replace (S na - na)%nat with 1%nat by lia; reflexivity|]. vm_compute in X2. injection X2 as <-. exact X1. }
  split; [|split; [|split]].
  - intros a lab name Ha Hname. pose proof (at_lt _ _ _ _ Ha) as La. rewrite Hna in La.
    assert (Hn : at_ names a name).
    { destruct (T a lab) as (x & X1 & X2); [unfold at_; rewrite nth_error_app1 by lia; exact Ha|]. congruence. }
    eexists. split; [apply (G a); [lia|exact Hn]|]. intros t o x. rewrite (P a ltac:(lia) t o x). split.
    + intros (Ht & Ho & [[_ H]|[[H _]|[H _]]]); [auto|lia|lia].
    + intros (Ht & Ho & H). split; [exact Ht|]. split; [exact Ho|]. left. auto.
  - eexists. split; [apply (G na); [lia|exact Q1]|]. intros t o x. rewrite (P na ltac:(lia) t o x). split.
    + intros (Ht & Ho & [[H _]|[[_ H]|[H _]]]); [lia|auto|lia].
    + intros (Ht & Ho & H). split; [exact Ht|]. split; [exact Ho|]. right. left. auto.
  - eexists. split; [apply (G (S na)); [lia|exact Q2]|]. intros t o x. rewrite (P (S na) ltac:(lia) t o x). split.
    + intros (Ht & Ho & [[H _]|[[H _]|[_ H]]]); [lia|lia|auto].
    + intros (Ht & Ho & H). split; [exact Ht|]. split; [exact Ho|]. right. right. auto.
  - intros k Hk. destruct (dict_of_keys _ _ _ _ Hk) as [X|X]; [contradiction X; reflexivity|]. rewrite Nc in X.
    apply in_at in X as [i Hi]. pose proof (at_lt _ _ _ _ Hi) as Li. rewrite Ln in Li.
    destruct (Nat.eq_dec i na) as [->|N1]; [left; exact (at_fun _ _ _ _ _ Hi Q1)|].
    destruct (Nat.eq_dec i (S na)) as [->|N2]; [right; left; exact (at_fun _ _ _ _ _ Hi Q2)|]. right. right.
    destruct (lt_at _ labels i) as [lab Hl]; [lia|]. exists lab. split; [exact (at_in _ _ _ _ Hl)|].
    destruct (T i lab) as (x & X1 & X2); [unfold at_; rewrite nth_error_app1 by lia; exact Hl|]. rewrite (at_fun _ _ _ _ _ Hi X1). exact X2.
Qed.
Print Assumptions C152_profiles.

Theorem C152_errors : forall nt no na week_rows end_rows labels sg,
  (dget String.eqb sg "weekday" = None -> activity_profiles nt no na week_rows end_rows labels sg = Err KeyError) /\
  (forall v, has_value sg "weekday" v -> v <> weekdays -> v <> weekend -> activity_profiles nt no na week_rows end_rows labels sg = Err ValueError) /\
  (forall rows, table_of sg week_rows end_rows rows -> Forall (fun r => length r = nt) rows -> (0 < nt)%nat -> length rows <> (no * na)%nat ->
     activity_profiles nt no na week_rows end_rows labels sg = Err ValueError) /\
  (forall rows lab, table_of sg week_rows end_rows rows -> Forall (fun r => length r = nt) rows -> length rows = (no * na)%nat ->
     In lab labels -> dget String.eqb activity_table lab = None -> activity_profiles nt no na week_rows end_rows labels sg = Err KeyError).
Proof.
  intros nt no na week_rows end_rows labels sg. rewrite weekday_form.
  assert (W : forall rows, table_of sg week_rows end_rows rows -> exists v, dget String.eqb sg "weekday" = Some v /\ value_eqb v week || value_eqb v week_end = true /\ (if value_eqb v week then week_rows else end_rows) = rows).
  { intros rows [[H ->]|[H ->]]; (eexists; split; [exact H|]; split; reflexivity). }
  split; [|split; [|split]].
  - intros ->. reflexivity.
  - intros v H N1 N2. unfold has_value in H. rewrite H. destruct (value_eqb v week) eqn:E1; [apply value_eq in E1; contradiction|].
    destruct (value_eqb v week_end) eqn:E2; [apply value_eq in E2; contradiction|]. reflexivity.
  - intros rows HT HR H0 HL. destruct (W rows HT) as (v & -> & -> & ->). unfold reshape3. rewrite (proj1 (transposed_spec nt rows HR)).
    destruct (Nat.eqb_spec (nt * length rows) (nt * (no * na))) as [E|]; [|reflexivity]. apply Nat.mul_cancel_l in E; lia.
  - intros rows lab HT HR HL HI HN. destruct (W rows HT) as (v & -> & -> & ->). destruct (reshape3_ok nt no na rows HR HL) as (pdf & -> & _). cbn [bind].
    rewrite (proj2 (translate_ok _ _)); [reflexivity|]. exists lab. split; [apply in_or_app; left; exact HI|exact HN].
Qed.
Print Assumptions C152_errors.

Example C152_case :
  activity_profiles 2 2 1 [[1 # 2; 1 # 3]; [1 # 4; 1 # 5]] [] ["ACT_TV"] [("weekday", weekdays)] =
    Ok [("watching_tv", [[1 # 2; 1 # 4]; [1 # 3; 1 # 5]]); ("level", [[1; 1]; [1; 1]]); ("active_occupancy", [[0; 1]; [0; 1]])] /\
  activity_profiles 2 2 1 [[1 # 2; 1 # 3]; [1 # 4; 1 # 5]] [] ["ACT_TV"] [("weekday", weekend)] = Err ValueError /\
  activity_profiles 2 2 1 [] [] ["ACT_TV"] [("weekday", VInts [1]%Z)] = Err ValueError /\
  activity_profiles 2 2 1 [[1 # 2; 1 # 3]; [1 # 4; 1 # 5]] [] ["ACT_X"] [("weekday", weekdays)] = Err KeyError.
Proof. vm_compute. auto. Qed.

(** ** C153: bulbs *)

Lemma ones : forall l : list (list (option Q)), qsum (map (fun house => inject_Z (Z.of_nat (length (flat_map is_bulb house)))) l) ==
  inject_Z (Z.of_nat (length (flat_map bulbs_of l))).
Proof.
  induction l as [|h l IH]; [reflexivity|]. cbn [map qsum flat_map]. rewrite IH, bulbs_same, List.app_length, Nat2Z.inj_add, inject_Z_plus. reflexivity.
Qed.

Lemma all_bulbs : forall l : list (list (option Q)), flat_map (flat_map is_bulb) l = flat_map bulbs_of l.
Proof. induction l as [|h l IH]; [reflexivity|]. cbn [flat_map]. rewrite IH, bulbs_same. reflexivity. Qed.

Lemma mean_some : forall l, l <> [] -> exists m, mean_n l = Some m /\ m * inject_Z (Z.of_nat (length l)) == qsum l.
Proof.
  intros l N. destruct l as [|x l]; [contradiction|]. unfold mean_n. eexists. split; [reflexivity|]. cbn [length].
  assert (0 < inject_Z (Z.of_nat (S (length l)))) by (rewrite <- Zlt_Qlt with (x := 0%Z); lia). field. lra.
Qed.

Lemma eq_Q : forall x y : Q, x = y -> x == y.
Proof. intros x y ->. reflexivity. Qed.

(** The mean is that of the numbers of bulbs, the second number their variance;
    without houses there is neither. *)
Theorem C153_numbers : forall config,
  (config = [] -> fst (bulbs_stats config) = (None, None)) /\
  (config <> [] -> exists m v, fst (bulbs_stats config) = (Some m, Some v) /\
     m * inject_Z (Z.of_nat (length config)) == inject_Z (Z.of_nat (length (flat_map bulbs_of config))) /\
     v * inject_Z (Z.of_nat (length config)) == total (map (fun house => (inject_Z (Z.of_nat (length (bulbs_of house))) - m) * (inject_Z (Z.of_nat (length (bulbs_of house))) - m)) config)).
Proof.
  intro config. split; [intros ->; reflexivity|]. intro N. unfold bulbs_stats. cbn [fst].
  set (nb := map (fun house => inject_Z (Z.of_nat (length (flat_map is_bulb house)))) config).
  assert (Nb : nb <> []) by (unfold nb; destruct config; [contradiction|discriminate]).
  destruct (mean_some nb Nb) as (m & Em & Hm). rewrite Em.
  destruct (mean_some (map (fun x => (x - m) * (x - m)) nb)) as (v & Ev & Hv); [destruct nb; [contradiction|discriminate]|]. rewrite Ev.
  exists m, v. split; [reflexivity|]. unfold nb in Hm, Hv. rewrite !map_length in *. split; [rewrite Hm; apply ones|].
  etransitivity; [exact Hv|]. apply eq_Q. etransitivity; [|symmetry; apply total_qsum]. rewrite map_map. apply f_equal, map_ext. intro h. rewrite bulbs_same. reflexivity.
Qed.
Print Assumptions C153_numbers.

(** Sum of the counts: the number of bulbs. *)
Lemma counts_sum : forall l, qsum (map (fun c => inject_Z (Z.of_nat (snd c))) (unique_counts l)) == inject_Z (Z.of_nat (length l)).
Proof.
  intro l. pose proof (unique_weigh (fun _ => 1) (fun _ _ _ => Qeq_refl 1) l) as H. unfold weigh in H.
  assert (A : forall u : list (Q * nat), qsum (map (fun c => inject_Z (Z.of_nat (snd c)) * 1) u) == qsum (map (fun c => inject_Z (Z.of_nat (snd c))) u)).
  { induction u as [|c u IH]; [reflexivity|]. cbn [map qsum]. rewrite IH. ring. }
  rewrite A in H. etransitivity; [exact H|]. clear. induction l as [|x l IH]; [reflexivity|]. cbn [map qsum length]. rewrite IH, Nat2Z.inj_succ. unfold Z.succ. rewrite inject_Z_plus. ring.
Qed.

(** The consumptions are those of the bulbs, once each and in increasing order;
    the share of each times the number of bulbs is its number. *)
Theorem C153_shares : forall config cons shares, snd (bulbs_stats config) = (cons, shares) ->
  length shares = length cons /\ increasing cons /\
  (forall x, In x (flat_map bulbs_of config) -> exists c, In c cons /\ c == x) /\
  (forall c, In c cons -> exists x, In x (flat_map bulbs_of config) /\ c == x) /\
  forall i c p, at_ cons i c -> at_ shares i p ->
    p * inject_Z (Z.of_nat (length (flat_map bulbs_of config))) == inject_Z (Z.of_nat (number_of c (flat_map bulbs_of config))).
Proof.
  intros config cons shares H. unfold bulbs_stats in H. cbn [snd] in H. rewrite all_bulbs in H. set (l := flat_map bulbs_of config) in *.
  injection H as <- <-. split; [rewrite !map_length; reflexivity|]. split; [apply sorted_increasing, unique_sorted|].
  split; [|split].
  - intros x Hx. destruct (unique_present l x Hx) as (y & m & I & E). exists y. split; [apply in_map_iff; exists (y, m); auto|exact E].
  - intros c Hc. apply in_map_iff in Hc as ([c' m] & <- & I). exact (unique_origin l c' m I).
  - intros i c p Hc Hp. unfold at_ in Hc, Hp. rewrite nth_error_map in Hc, Hp. destruct (nth_error (unique_counts l) i) as [[c' m]|] eqn:E; [|discriminate].
    cbn [option_map fst snd] in Hc, Hp. injection Hc as <-. injection Hp as <-.
    assert (I : In (c', m) (unique_counts l)) by exact (nth_error_In _ _ E).
    rewrite counts_sum. rewrite <- (number_indicator c' l). rewrite <- (unique_weigh (indicator c') (indicator_proper c') l).
    rewrite (weigh_one _ _ _ (unique_sorted l) I).
    assert (0 < inject_Z (Z.of_nat (length l))).
    { rewrite <- Zlt_Qlt with (x := 0%Z). destruct (unique_origin _ _ _ I) as (x & X & _). destruct l; [destruct X|cbn; lia]. }
    field. lra.
Qed.
Print Assumptions C153_shares.

Lemma ratio : forall (f : Q * nat -> Q) s u, ~ s == 0 -> qsum (map (fun c => f c / s) u) * s == qsum (map f u).
Proof. intros f s u N. induction u as [|c u IH]; [cbn; ring|]. cbn [map qsum]. rewrite <- IH. field. exact N. Qed.

(** The shares are a distribution as soon as there is a bulb, and the mean number
    of bulbs times their mean consumption is the installed power per house. *)
Theorem C153_power : forall config m v cons shares, bulbs_stats config = ((Some m, v), (cons, shares)) -> flat_map bulbs_of config <> [] ->
  is_pdf shares /\
  m * total (map (fun x => fst x * snd x) (combine cons shares)) * inject_Z (Z.of_nat (length config)) == total (flat_map bulbs_of config).
Proof.
  intros config m v cons shares H Nn.
  assert (Hf : fst (bulbs_stats config) = (Some m, v)) by (rewrite H; reflexivity).
  assert (Nc : config <> []) by (intro; subst; discriminate).
  destruct (proj2 (C153_numbers config) Nc) as (m' & v' & E & Hm & _). rewrite Hf in E. injection E as <- ->.
  unfold bulbs_stats in H. rewrite all_bulbs in H. set (l := flat_map bulbs_of config) in *. injection H as _ _ <- <-.
  assert (Hl : 0 < inject_Z (Z.of_nat (length l))) by (rewrite <- Zlt_Qlt with (x := 0%Z); destruct l; [contradiction|cbn; lia]).
  pose proof (counts_sum l) as S. set (s := qsum (map (fun c => inject_Z (Z.of_nat (snd c))) (unique_counts l))) in *.
  assert (Ns : ~ s == 0) by (rewrite S; lra).
  split.
  - split.
    + apply nonneg_Forall. apply Forall_forall. intros p Hp. apply in_map_iff in Hp as ([c n] & <- & _). cbn [snd].
      assert (0 <= inject_Z (Z.of_nat n)) by (rewrite <- Zle_Qle with (x := 0%Z); lia). apply Qle_shift_div_l; [rewrite S; exact Hl|]. rewrite Qmult_0_l. assumption.
    + rewrite total_qsum. pose proof (ratio (fun c => inject_Z (Z.of_nat (snd c))) s (unique_counts l) Ns) as R. fold s in R.
      apply (Qmult_inj_r _ _ s Ns). rewrite R. ring.
  - rewrite total_qsum.
    assert (X : qsum (map (fun x => fst x * snd x) (combine (map fst (unique_counts l)) (map (fun c => inject_Z (Z.of_nat (snd c)) / s) (unique_counts l)))) * s == total l).
    { rewrite (total_qsum l). transitivity (qsum (map (fun x => x) l)); [|rewrite map_id; reflexivity].
      rewrite <- (unique_weigh (fun x => x) (fun _ _ H => H) l). unfold weigh. rewrite <- (ratio _ s _ Ns).
      apply Qmult_comp; [|reflexivity]. clear -Ns. clearbody s. induction (unique_counts l) as [|c u IH]; [reflexivity|]. cbn [map combine qsum fst snd]. rewrite IH. field. exact Ns. }
    rewrite <- X, S, <- Hm. ring.
Qed.
Print Assumptions C153_power.

Example C153_case :
  (let '((m, v), (powers, shares)) := bulbs_stats [[Some 60; Some 0; None]; [Some 40; Some 60; Some 60]] in
   (option_map Qred m, option_map Qred v, powers, map Qred shares)) = (Some 2, Some 1, [40; 60], [1 # 4; 3 # 4]) /\
  bulbs_stats [] = ((None, None), ([], [])) /\ snd (bulbs_stats [[None]]) = ([], []).
Proof. vm_compute. auto. Qed.

(** ** C154: clearness and washing profiles *)

Definition known_version (v : string) : Prop := v = "v_2.2" \/ v = "v_2.3.3".

(** Every row is a distribution proportional to that of the sheet, in whose first
    row the second number is replaced by one. *)
Theorem C154_rows : forall version sheet out, clearness_tpm version sheet = Ok out ->
  known_version version /\ length out = length sheet /\
  (forall row0 row0', at_ sheet 0 row0 -> at_ out 0 row0' -> (2 <= length row0)%nat /\ length row0' = length row0 /\ total row0' == 1 /\
     exists s, 9 # 10 < s /\ s < 11 # 10 /\ forall j y, at_ row0' j y -> if Nat.eqb j 1 then y * s == 1 else exists x, at_ row0 j x /\ y * s == x) /\
  forall k row, (0 < k)%nat -> at_ sheet k row -> 9 # 10 < total row /\ total row < 11 # 10 /\
    exists row', at_ out k row' /\ total row' == 1 /\ rescaled_by (total row) row row'.
Proof.
  intros version sheet out H. unfold clearness_tpm in H.
  destruct (String.eqb version "v_2.2" || String.eqb version "v_2.3.3") eqn:Ev; [|discriminate].
  assert (KV : known_version version) by (apply orb_prop in Ev as [E|E]; apply String.eqb_eq in E; [left|right]; exact E).
  destruct sheet as [|row0 t]; [discriminate|]. destruct (length row0 <? 2)%nat eqn:E2; [discriminate|]. apply Nat.ltb_ge in E2.
  pose proof (rescale_pdf_ok (1 # 10) _ _ ltac:(lra) H) as [L R]. pose proof (rescale_pdf_ok_inv _ _ _ H) as (_ & _ & B).
  split; [exact KV|]. split; [exact L|]. split.
  - intros r0 r0' H0 H0'. unfold at_ in H0. cbn in H0. injection H0 as <-. destruct (R 0%nat (put row0 1 1) eq_refl) as (q & Q1 & Q2 & [Q3 Q4] & _).
    rewrite (at_fun _ _ _ _ _ H0' Q1). rewrite put_length in Q3. split; [exact E2|]. split; [exact Q3|]. split; [exact Q2|].
    exists (total (put row0 1 1)). destruct (B (put row0 1 1)) as [B1 B2]; [left; reflexivity|]. rewrite total_qsum. split; [lra|]. split; [lra|].
    intros j y Hy. destruct (lt_at _ row0 j) as [x Hx]; [rewrite <- Q3; exact (at_lt _ _ _ _ Hy)|].
    pose proof (Q4 _ _ _ (put_get _ 1 1 _ _ Hx) Hy) as M. rewrite total_qsum in M. destruct (Nat.eqb j 1); [exact M|eauto].
  - intros k row Hk Hr. destruct k as [|k]; [lia|]. assert (Hr' : at_ (put row0 1 1 :: t) (S k) row) by exact Hr.
    destruct (B row) as [B1 B2]; [exact (at_in _ _ _ _ Hr')|]. rewrite total_qsum. split; [lra|]. split; [lra|].
    destruct (R (S k) row Hr') as (q & Q1 & Q2 & Q3 & _). exists q. split; [exact Q1|]. split; [exact Q2|]. rewrite <- total_qsum. exact Q3.
Qed.
Print Assumptions C154_rows.

Lemma zero_total : forall l, (forall j x, at_ l j x -> x == 0) -> qsum l == 0.
Proof. intros l H. apply qsum_zero. apply Forall_forall. intros x Hx. apply in_at in Hx as [k Hk]. exact (H k x Hk). Qed.

(** The first state goes to the second when the rest of its row is zero; a small
    mass elsewhere is kept, see [C154_first_row_refuted]. *)
Theorem C154_first_row_partial : forall version sheet out row0 row0', clearness_tpm version sheet = Ok out -> at_ sheet 0 row0 -> at_ out 0 row0' ->
  (forall j x, at_ row0 j x -> j <> 1%nat -> x == 0) -> forall j y, at_ row0' j y -> y == if Nat.eqb j 1 then 1 else 0.
Proof.
  intros version sheet out row0 row0' H H0 H0' Z j y Hy. destruct (C154_rows _ _ _ H) as (_ & _ & R & _).
  destruct (R row0 row0' H0 H0') as (L2 & L & T & s & S1 & S2 & F).
  destruct (lt_at _ row0' 1) as [y1 Hy1]; [lia|].
  assert (S : s == 1).
  { pose proof (F 1%nat y1 Hy1) as E1. cbn in E1. rewrite total_qsum in T.
    assert (X : qsum row0' == y1).
    { destruct row0' as [|a [|b l]]; try (cbn in L; lia). unfold at_ in Hy1. cbn in Hy1. injection Hy1 as <-. cbn [qsum].
      assert (A : a == 0). { pose proof (F 0%nat a eq_refl) as Fa. cbn in Fa. destruct Fa as (x & Hx & Ex). rewrite (Z 0%nat x Hx) in Ex by lia. nra. }
      assert (B : qsum l == 0).
      { apply zero_total. intros k z Hk. pose proof (F (S (S k)) z Hk) as Fk. cbn in Fk. destruct Fk as (x & Hx & Ex). rewrite (Z _ x Hx) in Ex by lia. nra. }
      rewrite A, B. ring. }
    rewrite X in T. rewrite T in E1. lra. }
  pose proof (F j y Hy) as Fj. destruct (Nat.eqb_spec j 1) as [->|N].
  - rewrite S in Fj. lra.
  - destruct Fj as (x & Hx & Ex). rewrite (Z j x Hx N), S in Ex. lra.
Qed.
Print Assumptions C154_first_row_partial.

Theorem C154_first_row_refuted : exists sheet out row0' y, clearness_tpm "v_2.2" sheet = Ok out /\ at_ out 0 row0' /\ at_ row0' 1 y /\ ~ y == 1.
Proof.
  exists [[1 # 20; 0]; [1 # 2; 1 # 2]]. eexists. eexists. eexists. split; [vm_compute; reflexivity|]. split; [reflexivity|]. split; [reflexivity|]. discriminate.
Qed.
Print Assumptions C154_first_row_refuted.

(** Refused: far from one, another version, no room for the second state. *)
Theorem C154_errors : forall version sheet,
  (~ known_version version -> clearness_tpm version sheet = Err NotImplementedError) /\
  (known_version version -> sheet = [] \/ (exists row, at_ sheet 0 row /\ (length row < 2)%nat) -> clearness_tpm version sheet = Err IndexError) /\
  (known_version version -> forall row0, at_ sheet 0 row0 -> (2 <= length row0)%nat ->
     (clearness_tpm version sheet = Err ValueError <->
      (exists k row, (0 < k)%nat /\ at_ sheet k row /\ ~ (9 # 10 < total row /\ total row < 11 # 10)) \/
      (exists x1, at_ row0 1 x1 /\ ~ (- (1 # 10) < total row0 - x1 /\ total row0 - x1 < 1 # 10)))).
Proof.
  intros version sheet. unfold clearness_tpm, known_version. split; [|split].
  - intro N. destruct (String.eqb_spec version "v_2.2"); [tauto|]. destruct (String.eqb_spec version "v_2.3.3"); [tauto|]. reflexivity.
  - intros K H. assert (E : String.eqb version "v_2.2" || String.eqb version "v_2.3.3" = true) by (destruct K as [->| ->]; reflexivity). rewrite E.
    destruct H as [->|(row & H0 & L)]; [reflexivity|]. destruct sheet as [|r t]; [reflexivity|]. unfold at_ in H0. cbn in H0. injection H0 as <-.
    apply Nat.ltb_lt in L. rewrite L. reflexivity.
  - intros K row0 H0 L. assert (E : String.eqb version "v_2.2" || String.eqb version "v_2.3.3" = true) by (destruct K as [->| ->]; reflexivity). rewrite E.
    destruct sheet as [|r t]; [discriminate|]. unfold at_ in H0. cbn in H0. injection H0 as ->. destruct (Nat.ltb_spec (length row0) 2); [lia|].
    rewrite rescale_pdf_error_iff by lra.
    destruct (lt_at _ row0 1) as [x1 Hx1]; [lia|].
    assert (T : total (put row0 1 1) == total row0 - x1 + 1).
    { destruct row0 as [|a [|b l]]; try (cbn in L; lia). unfold at_ in Hx1. cbn in Hx1. injection Hx1 as ->. unfold total. cbn [put fold_right]. ring. }
    split.
    + intros (k & row & Hr & B). destruct k as [|k].
      * right. unfold at_ in Hr. cbn in Hr. injection Hr as <-. exists x1. split; [exact Hx1|]. intro C. apply B. rewrite T. lra.
      * left. exists (S k), row. split; [lia|]. split; [exact Hr|]. intro C. apply B. lra.
    + intros [(k & row & Hk & Hr & B)|(x & Hx & B)].
      * exists k, row. destruct k as [|k]; [lia|]. split; [exact Hr|]. intro C. apply B. lra.
      * rewrite (at_fun _ _ _ _ _ Hx Hx1) in B. exists 0%nat, (put row0 1 1). split; [reflexivity|]. intro C. apply B. rewrite T in C. lra.
Qed.
Print Assumptions C154_errors.

(** A washing machine runs for 138 minutes and a washer-dryer goes on for an hour
    with the power of drying. *)
Theorem C154_washing : forall kind,
  (kind <> "switchedON" -> washing_profiles kind = Err NotImplementedError) /\
  exists w d, washing_profiles "switchedON" = Ok [("washingmachine", [("CREST_washingmachine", w)]); ("washer_dryer", [("CREST_washer_dryer", d)])] /\
    length w = 138%nat /\ length d = 198%nat /\ firstn 138 d = w /\
    (forall i x, at_ d i x -> 73 <= x /\ x <= 2500) /\ (forall i x, at_ d i x -> (138 < i)%nat -> x = 2500).
Proof.
  intro kind. split.
  - intro N. unfold washing_profiles. destruct (String.eqb_spec kind "switchedON"); [contradiction|reflexivity].
  - eexists. eexists. split; [reflexivity|]. split; [reflexivity|]. split; [reflexivity|]. split; [vm_compute; reflexivity|].
    assert (B : forallb (fun k => Qle_bool 73 (washing_power (Z.of_nat k)) && Qle_bool (washing_power (Z.of_nat k)) 2500) (seq 0 198) = true) by (vm_compute; reflexivity).
    split.
    + intros i x Hx. unfold at_ in Hx. rewrite nth_error_map in Hx. destruct (nth_error (seq 0 198) i) as [k|] eqn:E; [|discriminate]. injection Hx as <-.
      rewrite forallb_forall in B. specialize (B k (nth_error_In _ _ E)). apply andb_prop in B as [B1 B2]. split; apply Qle_bool_iff; assumption.
    + intros i x Hx Hi. unfold at_ in Hx. rewrite nth_error_map in Hx. destruct (nth_error (seq 0 198) i) as [k|] eqn:E; [|discriminate]. injection Hx as <-.
      assert (Li : (i < 198)%nat) by (rewrite <- (seq_length 198 0); apply nth_error_Some; rewrite E; discriminate).
      rewrite seq_nth_error in E by exact Li. injection E as <-. unfold washing_power.
      repeat (match goal with |- context [Z.leb ?a ?b] => destruct (Z.leb_spec a b); [try lia; try reflexivity|] end). lia.
Qed.
Print Assumptions C154_washing.

(** Watts and minutes of the phases of the washer-dryer: fill, heat, wash, four
    times rinse and spin, fast spin, dry. *)
Definition phases : list (Q * nat) :=
  [(73, 9%nat); (2056, 21%nat); (73, 63%nat); (250, 2%nat); (73, 11%nat); (250, 2%nat); (73, 11%nat); (250, 2%nat); (73, 11%nat); (250, 2%nat); (568, 5%nat); (2500, 59%nat)].

Theorem C154_phases : exists w, washing_profiles "switchedON" =
  Ok [("washingmachine", [("CREST_washingmachine", w)]); ("washer_dryer", [("CREST_washer_dryer", concat (map (fun p => repeat (fst p) (snd p)) phases))])].
Proof. eexists. vm_compute. reflexivity. Qed.
Print Assumptions C154_phases.

Example C154_case :
  match clearness_tpm "v_2.2" [[0; 0; 0]; [1 # 2; 1 # 4; 1 # 4]; [1 # 2; 1 # 2; 1 # 50]] with Ok m => map (map Qred) m | Err _ => [] end =
    [[0; 1; 0]; [1 # 2; 1 # 4; 1 # 4]; [25 # 51; 25 # 51; 1 # 51]] /\
  clearness_tpm "v_2.2" [[1 # 2; 0]; [1 # 2; 1 # 2]] = Err ValueError /\ clearness_tpm "v_1" [[0; 0]] = Err NotImplementedError.
Proof. vm_compute. auto. Qed.
