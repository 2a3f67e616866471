(** * Properties of the older readers of data (C211-C213). *)

From Coq Require Import String List ZArith QArith Bool Arith Lia Lqa.
From Verif Require Import Prelude PreludeFacts SpecBase SpecBaseFacts Sampling_Model Sampling_Spec Sampling_Proofs Subgroup_Model Appliance_Model OwnDict_Spec
  Parse_Model Parse_Spec Parse_TpmProofs GTou_Model GTou_Spec GTou_Proofs Activity_LabelProofs Crest_Model Crest_Spec Crest_TpmProofs
  Heat_Model Heat_Spec Fit_Spec Conf_Model Conf_Spec Conf_Proofs Old_Model.
Import ListNotations.
Open Scope string_scope.
Open Scope list_scope.
Open Scope Q_scope.

(** ** C211: who is active in a diary *)

(** Sleeping and being ill in bed. *)
Definition asleep (code : Z) : Prop := (code = 110 \/ code = 132)%Z.
Definition known (code : Z) : Prop := meaning activity_codes code <> None.

Lemma codes_values : forall c v, meaning activity_codes c = Some v -> (asleep c /\ v = 0%Z) \/ (~ asleep c /\ v = 1%Z).
Proof.
  assert (G : forall d : list (Z * Z), Forall (fun kv => (asleep (fst kv) /\ snd kv = 0%Z) \/ (~ asleep (fst kv) /\ snd kv = 1%Z)) d ->
    forall c v, meaning d c = Some v -> (asleep c /\ v = 0%Z) \/ (~ asleep c /\ v = 1%Z)).
  { induction d as [|[k x] d IH]; intros F c v H; cbn [meaning] in H; [discriminate|]. inversion F as [|? ? F1 F2]; subst.
    destruct (Z.eqb_spec c k) as [->|N]; [cbn [fst snd] in F1; assert (x = v) by congruence; subst; exact F1|exact (IH F2 c v H)]. }
  apply G. unfold activity_codes, asleep. repeat (constructor; [cbn [fst snd]; lia|]). constructor.
Qed.

(** Every cell of a diary becomes 1, or 0 for somebody asleep or ill in bed; nothing else
    depends on the other cells. *)
Theorem C211_active : forall states, (exists p i c, diary states p i c) -> (forall p i c, diary states p i c -> known c) ->
  exists out, states_to_activity states = Ok out /\ List.length out = List.length states /\
    (forall p r r', at_ states p r -> at_ out p r' -> List.length r' = List.length r) /\
    forall p i c, diary states p i c -> (asleep c -> diary out p i 0%Z) /\ (~ asleep c -> diary out p i 1%Z).
Proof.
  intros states NE K. set (g := fun c => match meaning activity_codes c with Some v => v | None => 0%Z end).
  destruct (convert_map Z Z Z.compare Z.compare Z_order Z_order (merge activity_codes) g states) as (h & labels & E & _ & _ & A).
  - destruct NE as (p & i & c & r & Hr & Hc). exists r, c. split; eapply at_in; eauto.
  - intros r c Hr Hc. rewrite meaning_merge. apply in_at in Hr, Hc. destruct Hr as [p Hp], Hc as [i Hi]. specialize (K p i c (ex_intro _ r (conj Hp Hi))).
    unfold known in K. unfold g. destruct (meaning activity_codes c); [reflexivity|congruence].
  - unfold states_to_activity. rewrite E. cbn [bind]. rewrite (read_labels_map _ _ _ _ g) by exact A. eexists. split; [reflexivity|]. split; [apply map_length|]. split.
    + intros p r r' H1 H2. unfold at_ in H2. rewrite nth_error_map in H2. unfold at_ in H1. rewrite H1 in H2. cbn [option_map] in H2. assert (Er : map g r = r') by congruence. rewrite <- Er. apply map_length.
    + intros p i c (r & Hp & Hi). assert (D : diary (map (map g) states) p i (g c)).
      { exists (map g r). unfold at_ in *. rewrite !nth_error_map, Hp, Hi. split; reflexivity. }
      specialize (K p i c (ex_intro _ r (conj Hp Hi))). unfold known in K. unfold g in D at 2. destruct (meaning activity_codes c) as [v|] eqn:Ev; [|congruence].
      destruct (codes_values c v Ev) as [[Hs ->]|[Hs ->]]; split; intro; tauto.
Qed.

(** A code that is not in the list is refused, and so is an empty table. *)
Theorem C211_refused : forall states,
  ((exists p i c, diary states p i c /\ ~ known c) -> states_to_activity states = Err KeyError) /\
  ((forall p i c, ~ diary states p i c) -> states_to_activity states = Err ValueError).
Proof.
  intros states. split.
  - intros (p & i & c & H & N). unfold states_to_activity. rewrite (@convert_missing Z Z Z.compare Z.compare Z_order); [reflexivity|].
    exists p, i, c. split; [exact H|]. rewrite meaning_merge. unfold known in N. destruct (meaning activity_codes c); [exfalso; apply N; discriminate|reflexivity].
  - intro N. unfold states_to_activity, convert_states. assert (E : concat states = []).
    { destruct (concat states) as [|x l] eqn:E; [reflexivity|exfalso]. assert (I : In x (concat states)) by (rewrite E; left; reflexivity). apply in_concat in I. destruct I as (r & Hr & Hx).
      apply in_at in Hr, Hx. destruct Hr as [p Hp], Hx as [i Hi]. exact (N p i x (ex_intro _ r (conj Hp Hi))). }
    rewrite E. reflexivity.
Qed.

(** The code book: 151 codes of three digits, without repetition, including both codes of
    people asleep. *)
Theorem C211_codes : List.length activity_codes = 151%nat /\ NoDup (map fst activity_codes) /\ known 110 /\ known 132 /\
  forall c, known c -> (100 <= c <= 999)%Z.
Proof.
  split; [reflexivity|]. split.
  { assert (G : forall l : list Z, (fix d l := match l with [] => true | x :: r => negb (existsb (Z.eqb x) r) && d r end)%bool l = true -> NoDup l).
    { induction l as [|x l IH]; intro H; [constructor|]. apply andb_true_iff in H. destruct H as [H1 H2]. constructor; [|exact (IH H2)].
      intro I. apply negb_true_iff in H1. assert (T : existsb (Z.eqb x) l = true) by (apply existsb_exists; exists x; split; [exact I|apply Z.eqb_refl]). congruence. }
    apply G. vm_compute. reflexivity. }
  split; [discriminate|]. split; [discriminate|]. unfold known. intros c.
  assert (G : forall d : list (Z * Z), Forall (fun kv => (100 <= fst kv <= 999)%Z) d -> meaning d c <> None -> (100 <= c <= 999)%Z).
  { induction d as [|[k x] d IH]; intros F H; cbn [meaning] in H; [congruence|]. inversion F as [|? ? F1 F2]; subst. destruct (Z.eqb_spec c k) as [->|N]; [exact F1|exact (IH F2 H)]. }
  apply G. unfold activity_codes. repeat (constructor; [cbn [fst]; lia|]). constructor.
Qed.
Print Assumptions C211_active.
Print Assumptions C211_refused.
Print Assumptions C211_codes.

Example C211_active_ex : states_to_activity [[110; 120; 411]; [132; 110; 132]]%Z = Ok [[0; 1; 1]; [0; 0; 0]]%Z.
Proof. vm_compute. reflexivity. Qed.
Example C211_one_ex : states_to_activity [[411; 411]]%Z = Ok [[1; 1]]%Z /\ states_to_activity [[110]; [100]]%Z = Err KeyError.
Proof. split; vm_compute; reflexivity. Qed.

(** ** C212: the transition matrices of the older CREST simulators *)

(** All lines have two leading columns and one number per state. *)
Definition lines_of (w : nat) (lines : list (list Q)) : Prop := forall r row, at_ lines r row -> List.length row = (w + 2)%nat.

Lemma reshape_same : forall w lines m, (0 < w)%nat -> lines_of w lines -> reshape_all w lines = Ok m ->
  exists times, reshape_tpm times w lines = Ok m /\ (times * w)%nat = List.length lines.
Proof.
  intros w lines m Hw L H. unfold reshape_all in H. cbv zeta in H.
  assert (E : state_columns w lines = map (skipn 2) lines).
  { unfold state_columns. apply map_ext_in. intros row I. apply in_at in I. destruct I as [r Hr]. specialize (L r row Hr).
    rewrite firstn_all2; [reflexivity|]. rewrite skipn_length. lia. }
  assert (Lf : List.length (concat (map (skipn 2) lines)) = (List.length lines * w)%nat).
  { clear -L. induction lines as [|row lines IH]; [reflexivity|]. cbn [map concat List.length]. rewrite app_length, IH by (intros r x Hx; exact (L (Datatypes.S r) x Hx)).
    rewrite skipn_length, (L 0%nat row eq_refl). lia. }
  destruct (Nat.eqb_spec (List.length (concat (map (skipn 2) lines)) mod (w * w)) 0) as [D|D]; [|discriminate].
  set (times := (List.length (concat (map (skipn 2) lines)) / (w * w))%nat) in *. exists times.
  assert (T : List.length (concat (map (skipn 2) lines)) = (times * (w * w))%nat).
  { unfold times. rewrite Nat.mul_comm. apply Nat.div_exact; [nia|exact D]. }
  split; [|rewrite Lf in T; nia]. unfold reshape_tpm. cbv zeta. rewrite E. apply Nat.eqb_eq in T. rewrite T. exact H.
Qed.

(** What is loaded for [n] residents, (n + 1)^2 states: for every time and state the numbers
    of one line of the file divided by their sum, or staying when they are all zero; always
    chances adding up to one. *)
Theorem C212_rows : forall files n day out, load_pdf files n day true = Ok out ->
  exists k lines, n = Z.of_nat k /\ (1 <= k <= 6)%nat /\ files (tpm_file k day) = Some lines /\
    let w := ((k + 1) * (k + 1))%nat in
    (lines_of w lines -> (forall r row, at_ lines r row -> nonneg row) ->
     (List.length out * w)%nat = List.length lines /\
     forall t m, at_ out t m -> List.length m = w /\ forall i o, at_ m i o ->
       is_pdf o /\ exists row l, at_ lines (t * w + i) row /\ numbers w row l /\ settles l i o).
Proof.
  intros files n day out H. unfold load_pdf, checked_residents in H. destruct ((0 <? n)%Z && (n <=? 6)%Z)%bool eqn:E; [|discriminate]. cbn [bind] in H.
  apply andb_true_iff in E. destruct E as [E1 E2]. apply Z.ltb_lt in E1. apply Z.leb_le in E2.
  exists (Z.to_nat n). destruct (files (tpm_file (Z.to_nat n) day)) as [lines|] eqn:F; [|discriminate]. exists lines.
  split; [lia|]. split; [lia|]. split; [reflexivity|]. cbv zeta in H |- *. intros L P. set (w := ((Z.to_nat n + 1) * (Z.to_nat n + 1))%nat) in *.
  assert (Hw : (0 < w)%nat) by (unfold w; lia). destruct (reshape_all w lines) as [m|] eqn:R; [|discriminate]. cbn [bind] in H.
  destruct (reshape_same _ _ _ Hw L R) as (times & R' & T).
  assert (Wd : wide_sheet w lines) by (intros r row Hr; rewrite (L r row Hr); lia).
  destruct (tpm_rows times w lines Hw Wd P _ _ R' H) as [Lo K]. split; [rewrite Lo; exact T|].
  intros t x Hx. destruct (K t x Hx) as (_ & Lx & Q). split; [exact Lx|exact Q].
Qed.

(** Without adjustment, the numbers of the file. *)
Theorem C212_raw : forall files n day out k lines, load_pdf files n day false = Ok out -> n = Z.of_nat k -> files (tpm_file k day) = Some lines ->
  let w := ((k + 1) * (k + 1))%nat in lines_of w lines ->
  (List.length out * w)%nat = List.length lines /\
  forall t m, at_ out t m -> List.length m = w /\ forall i o, at_ m i o -> exists row, at_ lines (t * w + i) row /\ numbers w row o.
Proof.
  intros files n day out k lines H -> F w L. unfold load_pdf, checked_residents in H. destruct (_ && _)%bool; [|discriminate]. cbn [bind] in H. rewrite Nat2Z.id, F in H. cbv zeta in H.
  fold w in H. destruct (reshape_all w lines) as [m0|] eqn:R; [|discriminate]. cbn [bind] in H. assert (Em : m0 = out) by congruence. subst m0.
  assert (Hw : (0 < w)%nat) by (unfold w; lia). destruct (reshape_same _ _ _ Hw L R) as (times & R' & T).
  assert (Wd : wide_sheet w lines) by (intros r row Hr; rewrite (L r row Hr); lia).
  destruct (reshape_at times w lines Hw Wd out R') as [Lo A]. split; [rewrite Lo; exact T|].
  intros t m Hm. destruct (A t m Hm) as (_ & Lm & C). split; [exact Lm|]. intros i o Ho. destruct (C i o Ho) as (_ & row & R1 & R2). exists row. auto.
Qed.

(** Refusals: numbers of residents outside 1 to 6, before any file is opened; missing files;
    lines that do not make whole matrices. *)
Theorem C212_refused : forall files n day adjust,
  ((n < 1 \/ 6 < n)%Z -> load_pdf files n day adjust = Err TypeError) /\
  (forall k, n = Z.of_nat k -> (1 <= k <= 6)%nat ->
    (files (tpm_file k day) = None -> load_pdf files n day adjust = Err FileNotFoundError) /\
    (forall lines, files (tpm_file k day) = Some lines -> lines_of ((k + 1) * (k + 1)) lines ->
       (forall q, List.length lines <> (q * ((k + 1) * (k + 1)))%nat) -> load_pdf files n day adjust = Err ValueError)).
Proof.
  intros files n day adjust. unfold load_pdf, checked_residents. split.
  - intro H. replace ((0 <? n)%Z && (n <=? 6)%Z)%bool with false; [reflexivity|]. symmetry. apply andb_false_iff. rewrite Z.ltb_ge, Z.leb_gt. lia.
  - intros k -> Hk. replace ((0 <? Z.of_nat k)%Z && (Z.of_nat k <=? 6)%Z)%bool with true by (symmetry; apply andb_true_iff; rewrite Z.ltb_lt, Z.leb_le; lia).
    cbn [bind]. rewrite Nat2Z.id. split; [intros ->; reflexivity|]. intros lines -> L N. cbv zeta. set (w := ((k + 1) * (k + 1))%nat) in *.
    destruct (reshape_all w lines) as [m|e] eqn:R.
    + exfalso. destruct (reshape_same w lines m ltac:(unfold w; lia) L R) as (times & _ & T). exact (N times (eq_sym T)).
    + cbn [bind]. f_equal. unfold reshape_all in R. cbv zeta in R. destruct (Nat.eqb _ 0); congruence.
Qed.

(** Which files are accepted: whole matrices whose lines have no numbers at all or nearly add
    up to one. *)
Theorem C212_accepted : forall files k day lines, let w := ((k + 1) * (k + 1))%nat in
  (1 <= k <= 6)%nat -> files (tpm_file k day) = Some lines -> lines_of w lines -> (forall r row, at_ lines r row -> nonneg row) ->
  ((exists out, load_pdf files (Z.of_nat k) day true = Ok out) <->
   (exists times, List.length lines = (times * w)%nat) /\
   forall r row l, at_ lines r row -> numbers w row l -> total l == 0 \/ (9 # 10 < total l /\ total l < 11 # 10)).
Proof.
  intros files k day lines w Hk F L P. unfold load_pdf, checked_residents.
  replace ((0 <? Z.of_nat k)%Z && (Z.of_nat k <=? 6)%Z)%bool with true by (symmetry; apply andb_true_iff; rewrite Z.ltb_lt, Z.leb_le; lia).
  cbn [bind]. rewrite Nat2Z.id, F. cbv zeta. fold w. assert (Hw : (0 < w)%nat) by (unfold w; lia).
  assert (Wd : wide_sheet w lines) by (intros r row Hr; rewrite (L r row Hr); lia).
  assert (Lf : forall ls, lines_of w ls -> List.length (concat (map (skipn 2) ls)) = (List.length ls * w)%nat).
  { induction ls as [|row ls IH]; intro X; [reflexivity|]. cbn [map concat List.length]. rewrite app_length, IH by (intros r x Hx; exact (X (Datatypes.S r) x Hx)).
    rewrite skipn_length, (X 0%nat row eq_refl). lia. }
  split.
  - intros (out & H). destruct (reshape_all w lines) as [m|] eqn:R; [|discriminate]. cbn [bind] in H. destruct (reshape_same _ _ _ Hw L R) as (times & R' & T).
    split; [exists times; symmetry; exact T|]. exact (proj1 (tpm_accepted times w lines Hw Wd P m R') (ex_intro _ out H)).
  - intros ((times & T) & N). destruct (reshape_all w lines) as [m|e] eqn:R.
    + cbn [bind]. destruct (reshape_same _ _ _ Hw L R) as (times' & R' & _). exact (proj2 (tpm_accepted times' w lines Hw Wd P m R') N).
    + exfalso. unfold reshape_all in R. cbv zeta in R. rewrite (Lf lines L), T in R. replace (times * w * w)%nat with (times * (w * w))%nat in R by lia.
      rewrite Nat.mod_mul in R by nia. discriminate.
Qed.

(** No two kinds of households share a file. *)
Theorem C212_files : forall k day k' day', (1 <= k <= 6)%nat -> (1 <= k' <= 6)%nat -> tpm_file k day = tpm_file k' day' -> k = k' /\ day = day'.
Proof.
  assert (A : forall a b t, (a ++ t = b ++ t)%string -> a = b).
  { assert (Len : forall a t, String.length (a ++ t) = (String.length a + String.length t)%nat) by (induction a as [|c a IH]; intro t; [reflexivity|cbn [String.append String.length]; rewrite IH; reflexivity]).
    induction a as [|c a IH]; intros [|c' b] t H; [reflexivity| | |].
    - exfalso. apply (f_equal String.length) in H. cbn [String.append String.length] in H. rewrite Len in H. lia.
    - exfalso. apply (f_equal String.length) in H. cbn [String.append String.length] in H. rewrite Len in H. lia.
    - cbn [String.append] in H. injection H as -> H. f_equal. exact (IH b t H). }
  intros k day k' day' Hk Hk' H. unfold tpm_file in H.
  assert (D : forall j, (1 <= j <= 6)%nat -> exists c, str_of_nat j = String c "" /\ Ascii.nat_of_ascii c = (48 + j)%nat).
  { intros j Hj. assert (C : (j = 1 \/ j = 2 \/ j = 3 \/ j = 4 \/ j = 5 \/ j = 6)%nat) by lia. destruct C as [->|[->|[->|[->|[->| ->]]]]]; eexists; split; reflexivity. }
  destruct (D k Hk) as (c & E & N), (D k' Hk') as (c' & E' & N'). rewrite E, E' in H. cbn [String.append] in H. injection H as Hc Hd. subst c'. split; [lia|]. exact (A _ _ _ Hd).
Qed.
Print Assumptions C212_rows.
Print Assumptions C212_raw.
Print Assumptions C212_refused.
Print Assumptions C212_accepted.
Print Assumptions C212_files.

Definition disk : string -> option (list (list Q)) := fun f =>
  if String.eqb f "CREST_Demand_Model_v2.3.3.xlsm - tpm1_wd.csv" then Some [[0; 0; 1; 0; 0; 0]; [0; 1; (1 # 2); (9 # 20); 0; 0]; [0; 2; 0; 0; 0; 0]; [0; 3; 0; 0; (1 # 4); (3 # 4)]] else None.
Example C212_rows_ex : (match load_pdf disk 1 "d" true with Ok ms => map (map (map Qred)) ms | Err _ => [] end,
    load_pdf disk 2 "d" true, load_pdf disk 7 "d" true) =
  ([[[1; 0; 0; 0]; [(10 # 19); (9 # 19); 0; 0]; [0; 0; 1; 0]; [0; 0; (1 # 4); (3 # 4)]]], Err FileNotFoundError, Err TypeError).
Proof. vm_compute. reflexivity. Qed.
Example C212_raw_ex : match load_pdf disk 1 "d" false with Ok ms => map (fun m => nth_error m 2) ms | Err _ => [] end = [Some [0; 0; 0; 0]].
Proof. vm_compute. reflexivity. Qed.

(** ** C213: the weather of Open Power System Data *)

Lemma at_map2_iff : forall A B C (f : A -> B -> C) l m i v, at_ (map2 f l m) i v <-> exists a b, at_ l i a /\ at_ m i b /\ v = f a b.
Proof.
  unfold at_. intros A B C f. induction l as [|x l IH]; intros [|y m] i v; cbn [map2].
  - split; [destruct i; discriminate|intros (a & b & H & _); destruct i; discriminate].
  - split; [destruct i; discriminate|intros (a & b & H & _); destruct i; discriminate].
  - split; [destruct i; discriminate|intros (a & b & _ & H & _); destruct i; discriminate].
  - destruct i as [|i]; cbn [nth_error]; [|apply IH]. split; [intro H; exists x, y; repeat split; congruence|intros (a & b & H1 & H2 & ->); congruence].
Qed.

(** The temperature is that of the country; the irradiance is at every hour the sum of its
    direct and diffuse radiations, unknown exactly if one of them is. *)
Theorem C213_climate : forall code_of country times df out, once df -> ops_climate code_of country times df = Ok out ->
  exists code, code_of country = Ok code /\ cl_times out = times /\
    (forall i v, at_ (cl_outside out) i v <-> holds df (code ++ "_temperature") i v) /\
    (forall i a b, holds df (code ++ "_radiation_direct_horizontal") i a -> holds df (code ++ "_radiation_diffuse_horizontal") i b ->
       exists v, at_ (cl_irradiance out) i v /\ (forall x y, val a x -> val b y -> val v (x + y)) /\ (nan v <-> nan a \/ nan b)) /\
    (forall i v, at_ (cl_irradiance out) i v -> exists a b, holds df (code ++ "_radiation_direct_horizontal") i a /\ holds df (code ++ "_radiation_diffuse_horizontal") i b).
Proof.
  intros code_of country times df out O H. unfold ops_climate in H. next H. exists c. split; [reflexivity|]. do 3 next H. injection H as <-. cbn [cl_times cl_outside cl_irradiance].
  split; [reflexivity|]. split; [intros i v; now apply wcol_holds|]. split.
  - intros i a b Ha Hb. apply (wcol_holds _ _ _ _ _ _ O E1) in Ha. apply (wcol_holds _ _ _ _ _ _ O E2) in Hb. exists (nplus b a).
    split; [apply at_map2_iff; exists b, a; auto|]. split.
    + intros x y (x0 & -> & Hx) (y0 & -> & Hy). exists (y0 + x0). split; [reflexivity|]. rewrite Hx, Hy. ring.
    + unfold nan. destruct a, b; cbn [nplus]; intuition discriminate.
  - intros i v Hv. apply at_map2_iff in Hv. destruct Hv as (b & a & Hb & Ha & _). exists a, b. split; [apply (wcol_holds _ _ _ _ _ _ O E1); exact Ha|apply (wcol_holds _ _ _ _ _ _ O E2); exact Hb].
Qed.

(** A known country without one of the three columns is refused; an unknown one too. *)
Theorem C213_refused : forall code_of country times df,
  (forall e, code_of country = Err e -> ops_climate code_of country times df = Err e) /\
  (forall code, code_of country = Ok code ->
     (exists what, In what ["_temperature"; "_radiation_direct_horizontal"; "_radiation_diffuse_horizontal"] /\ forall c, ~ In ((code ++ what)%string, c) df) ->
     ops_climate code_of country times df = Err KeyError) /\
  (forall code k, code_of country = Ok code ->
     has_columns df k [(code ++ "_temperature")%string; (code ++ "_radiation_direct_horizontal")%string; (code ++ "_radiation_diffuse_horizontal")%string] ->
     exists out, ops_climate code_of country times df = Ok out /\ List.length (cl_outside out) = k /\ List.length (cl_irradiance out) = k).
Proof.
  intros code_of country times df. unfold ops_climate. split; [intros e ->; reflexivity|]. split.
  - intros code -> (what & I & M). cbn [bind].
    assert (W : forall k, (exists c, wcol df k = Ok c) \/ wcol df k = Err KeyError) by (intro k; unfold wcol; destruct (dget String.eqb df k); eauto).
    cbn [In] in I. destruct I as [<-|[<-|[<-|[]]]]; pose proof (wcol_missing _ _ _ M) as X.
    + rewrite X. reflexivity.
    + destruct (W (code ++ "_temperature")%string) as [(c & ->)| ->]; [|reflexivity]. cbn [bind]. rewrite X. reflexivity.
    + destruct (W (code ++ "_temperature")%string) as [(c & ->)| ->]; [|reflexivity]. cbn [bind].
      destruct (W (code ++ "_radiation_direct_horizontal")%string) as [(c1 & ->)| ->]; [|reflexivity]. cbn [bind]. rewrite X. reflexivity.
  - intros code k -> H. cbn [bind]. destruct (wcol_has _ _ _ _ (code ++ "_temperature")%string H (or_introl eq_refl)) as (a & -> & La). cbn [bind].
    destruct (wcol_has _ _ _ _ (code ++ "_radiation_direct_horizontal")%string H (or_intror (or_introl eq_refl))) as (b & -> & Lb). cbn [bind].
    destruct (wcol_has _ _ _ _ (code ++ "_radiation_diffuse_horizontal")%string H (or_intror (or_intror (or_introl eq_refl)))) as (c & -> & Lc).
    cbn [bind]. eexists. split; [reflexivity|]. cbn [cl_outside cl_irradiance]. split; [exact La|]. rewrite map2_length. lia.
Qed.
Print Assumptions C213_climate.
Print Assumptions C213_refused.

Example C213_climate_ex : match ops_climate (fun _ => Ok "DE") "germany" [0; 1; 2]%Z [("DE_temperature", [Some (-3); Some 2; Some 5]);
    ("FR_temperature", [Some 1; Some 2; Some 3]); ("DE_radiation_direct_horizontal", [Some 0; Some 200; None]); ("DE_radiation_diffuse_horizontal", [Some 0; Some 55; Some 3])] with
  Ok o => (cl_outside o, cl_irradiance o) | Err _ => ([], []) end = ([Some (-3); Some 2; Some 5], [Some 0; Some 255; None]).
Proof. vm_compute. reflexivity. Qed.
