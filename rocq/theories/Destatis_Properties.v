(** * C144-C146: statistics of the German federal office. *)

From Coq Require Import String List ZArith QArith Bool Arith Lia Lqa Ascii.
From Verif Require Import Prelude PreludeFacts SpecBase SpecBaseFacts Sampling_Model Sampling_Proofs Subgroup_Model Subgroup_Spec Subgroup_Proofs
  Appliance_Model Appliance_Spec Appliance_TypeProofs OwnDict_Spec OwnDict_Proofs Destatis_Model Destatis_Spec Destatis_ColumnProofs Destatis_Proofs.
Import ListNotations.
Open Scope string_scope.

(** ** C144: population *)

Definition known_names : list string :=
  ["resident_number"; "crest"; "resident_number_2013"; "resident_number_2019"; "household_types"; "household_types_2019"].

Theorem C144_names : forall s,
  (In s known_names -> exists p, parse_population s = Ok p) /\
  (~ In s known_names -> parse_population s = Err NotImplementedError).
Proof.
  intro s. split.
  - intros [<-|[<-|[<-|[<-|[<-|[<-|[]]]]]]]; eexists; reflexivity.
  - intro N. unfold parse_population. cbn [known_names In] in N.
    destruct (String.eqb_spec s "resident_number") as [->|_]; [exfalso; tauto|].
    destruct (String.eqb_spec s "crest") as [->|_]; [exfalso; tauto|].
    destruct (String.eqb_spec s "resident_number_2013") as [->|_]; [exfalso; tauto|].
    destruct (String.eqb_spec s "resident_number_2019") as [->|_]; [exfalso; tauto|].
    destruct (String.eqb_spec s "household_types") as [->|_]; [exfalso; tauto|].
    destruct (String.eqb_spec s "household_types_2019") as [->|_]; [exfalso; tauto|]. reflexivity.
Qed.
Print Assumptions C144_names.

(** Names without a year mean 2019. *)
Theorem C144_latest :
  parse_population "resident_number" = parse_population "resident_number_2019" /\
  parse_population "crest" = parse_population "resident_number_2019" /\
  parse_population "household_types" = parse_population "household_types_2019".
Proof. repeat split. Qed.
Print Assumptions C144_latest.

(** The three populations. *)
Lemma three : forall s p, parse_population s = Ok p -> p = residents_2013 \/ p = residents_2019 \/ p = household_types_2019.
Proof.
  intros s p H. unfold parse_population in H.
  repeat match type of H with (if ?b then _ else _) = _ => destruct b end; try discriminate; injection H as <-; auto.
Qed.

Ltac nodup := repeat constructor; cbn; intuition discriminate.

(** Every subgroup is a household with a known number of residents; its persons
    are as many and the appliance sheet has a column for it. *)
Theorem C144_population : forall s p, parse_population s = Ok p ->
  length (po_pdf p) = length (po_groups p) /\ NoDup (po_groups p) /\ (0 < po_number p)%Z /\
  is_pdf (po_pdf p) /\ Forall (fun x => 0 < x)%Q (po_pdf p) /\
  forall g, In g (po_groups p) -> exists n persons k,
    has g "n_residents" n /\ (1 <= n)%Z /\
    household_to_persons g = Ok persons /\ Z.of_nat (length persons) = n /\
    get_column g = Ok k /\ heading k g.
Proof.
  intros s p H.
  assert (P : forall l, Forall (fun x => 0 < x)%Q l -> total l == 1 -> is_pdf l).
  { intros l F T. split; [|exact T]. intros i x Hx. rewrite Forall_forall in F. specialize (F x (at_in _ _ _ _ Hx)). lra. }
  assert (G : forall g n persons k, has g "n_residents" n -> (1 <= n)%Z -> household_to_persons g = Ok persons -> Z.of_nat (length persons) = n -> get_column g = Ok k ->
    exists n persons k, has g "n_residents" n /\ (1 <= n)%Z /\ household_to_persons g = Ok persons /\ Z.of_nat (length persons) = n /\ get_column g = Ok k /\ heading k g).
  { intros g n persons k H1 H2 H3 H4 H5. exists n, persons, k. repeat (split; [assumption|]). apply column_fits. exact H5. }
  destruct (three s p H) as [->|[->| ->]]; (split; [reflexivity|]); (split; [nodup|]); (split; [reflexivity|]).
  - assert (F : Forall (fun x => 0 < x)%Q (po_pdf residents_2013)) by (repeat constructor).
    split; [apply P; [exact F|reflexivity]|]. split; [exact F|].
    intros g [<-|[<-|[<-|[<-|[<-|[]]]]]]; eapply G; try reflexivity; lia.
  - assert (F : Forall (fun x => 0 < x)%Q (po_pdf residents_2019)) by (repeat constructor).
    split; [apply P; [exact F|reflexivity]|]. split; [exact F|].
    intros g [<-|[<-|[<-|[<-|[<-|[]]]]]]; eapply G; try reflexivity; lia.
  - assert (F : Forall (fun x => 0 < x)%Q (po_pdf household_types_2019)) by (repeat constructor).
    split; [apply P; [exact F|reflexivity]|]. split; [exact F|].
    intros g [<-|[<-|[<-|[<-|[<-|[<-|[<-|[<-|[]]]]]]]]]; eapply G; try reflexivity; lia.
Qed.
Print Assumptions C144_population.

(** Sampling any positive number of households gives one number per subgroup,
    and they add up; only the subgroups listed occur. *)
Theorem C144_sampling : forall s p n algo draws, parse_population s = Ok p -> (1 <= n)%nat -> length draws = n ->
  algo = RealPopulation \/ algo = MonteCarlo ->
  exists counts, sample_population n (po_pdf p) algo draws = Ok counts /\
    length counts = length (po_groups p) /\ total_nat counts = n.
Proof.
  intros s p n algo draws H Hn Hd Ha. destruct (C144_population s p H) as (L & _ & _ & Hp & _ & _).
  assert (Hne : po_pdf p <> []) by (destruct (three s p H) as [->|[->| ->]]; discriminate).
  assert (X : exists counts, sample_population n (po_pdf p) algo draws = Ok counts /\ length counts = length (po_groups p)).
  { destruct Ha as [->| ->].
    - destruct (real_population_quota n (po_pdf p) draws Hn Hp) as (counts & E & El & _). exists counts. split; [exact E|congruence].
    - destruct (mc_from_1d_cdf_all (cumsum (po_pdf p)) draws) as (out & E & Lo & O).
      { intro X. apply Hne. apply length_zero_iff_nil. rewrite <- cumsum_length, X. reflexivity. }
      unfold sample_population. rewrite (check_pdf_ok _ Hp). cbn [bind]. rewrite E. cbn [bind]. eexists. split; [reflexivity|].
      rewrite bincount_length; [rewrite cumsum_length; exact L|]. intros x Hx. apply in_at in Hx as [k Hk].
      destruct (lt_at _ draws k) as [r Hr]; [rewrite <- Lo; eapply at_lt; exact Hk|]. destruct (O k r Hr) as (i & Hi & Li & _).
      rewrite (at_fun _ _ _ _ _ Hk Hi). exact Li. }
  destruct X as (counts & E & El). exists counts. split; [exact E|]. split; [exact El|].
  exact (sample_population_total n (po_pdf p) algo draws counts Hd E).
Qed.
Print Assumptions C144_sampling.

(** Shares and number of households are the published ones. *)
Theorem C144_published : forall s, In s ["resident_number_2013"; "resident_number_2019"; "household_types_2019"] ->
  exists p, parse_population s = Ok p /\ po_number p = snd (figures s) /\ length (po_groups p) = length (fst (figures s)) /\
    forall i g share f, at_ (po_groups p) i g -> at_ (po_pdf p) i share -> at_ (fst (figures s)) i f ->
      has g "n_residents" (f_residents f) /\ dget String.eqb g "household_type" = option_map VInt (f_type f) /\
      (share * total (map f_weight (fst (figures s))) == f_weight f)%Q.
Proof.
  intros s Hs. destruct Hs as [<-|[<-|[<-|[]]]]; (eexists; split; [reflexivity|]; split; [reflexivity|]; split; [reflexivity|]);
    intros i g share f Hg Hp Hf; do 9 (try destruct i as [|i]); unfold at_ in *; cbn [nth_error figures fst String.eqb Ascii.eqb Bool.eqb] in Hg, Hp, Hf; vm_compute in Hg, Hp, Hf;
    try discriminate; injection Hg as <-; injection Hp as <-; injection Hf as <-; repeat split.
Qed.
Print Assumptions C144_published.

Example C144_example :
  parse_population "households" = Err NotImplementedError /\
  (exists p, parse_population "crest" = Ok p /\ map Qred (po_pdf p) = [423#1000; 83#250; 119#1000; 91#1000; 7#200]%Q /\ po_number p = 41506000%Z /\
     sample_population 10 (po_pdf p) RealPopulation (repeat 0 10)%Q = Ok [4; 3; 1; 1; 1]%nat) /\
  (exists p, parse_population "household_types" = Ok p /\ nth_error (po_groups p) 5 = Some (household 3 4) /\
     map (fun x => Qred (x * (36165#1000)))%Q (po_pdf p) = map Qred hh_numbers).
Proof.
  split; [reflexivity|]. split; eexists; repeat split; vm_compute; reflexivity.
Qed.

(** ** C145: column of a subgroup *)

(** The column read always describes the subgroup. *)
Theorem C145_fits : forall g k, get_column g = Ok k -> heading k g.
Proof. exact column_fits. Qed.
Print Assumptions C145_fits.

(** Two different headings of the same precision never describe the same
    subgroup, so the best heading is unique. *)
Theorem C145_unique : forall g j k, best_heading g j -> best_heading g k -> j = k.
Proof.
  intros g j k [Hj Bj] [Hk Bk]. apply (heading_fun g); auto. specialize (Bj k Hk). specialize (Bk j Hj). lia.
Qed.
Print Assumptions C145_unique.

(** The column read is the one of the best heading, for subgroups without odd
    attributes. *)
Theorem C145_best_partial : forall g k, plain g -> (get_column g = Ok k <-> best_heading g k).
Proof. exact column_iff. Qed.
Print Assumptions C145_best_partial.

Theorem C145_found_partial : forall g, plain g ->
  ((exists c, heading c g) -> exists k, get_column g = Ok k) /\
  ((forall c, ~ heading c g) -> get_column g = Err ValueError).
Proof.
  intros g P. split.
  - intro H. destruct (best_column g P H) as (k & E & _). eauto.
  - intro N. destruct (get_column g) as [k|e] eqn:E; [exfalso; exact (N k (column_fits g k E))|]. f_equal. exact (column_plain_error g e P E).
Qed.
Print Assumptions C145_found_partial.

(** A revenue of zero has a heading but is refused. *)
Theorem C145_revenue_refuted : exists g c, heading c g /\ get_column g = Err ValueError.
Proof.
  exists [("household_revenue", VInt 0)], 27%Z. split; [exists 0%Z; repeat split; lia|reflexivity].
Qed.
Print Assumptions C145_revenue_refuted.

(** The column of five residents and more refuses six. *)
Theorem C145_large_refuted : exists g c, heading c g /\ get_column g = Err AssertionError.
Proof.
  exists [("n_residents", VInt 6)], 17%Z. split; [exists 6%Z; split; [reflexivity|lia]|reflexivity].
Qed.
Print Assumptions C145_large_refuted.

(** A lone parent with four children is read in the column of the size of the
    household rather than in that of lone parents. *)
Theorem C145_precedence_refuted : exists g c k, heading c g /\ get_column g = Ok k /\ (precision k < precision c)%nat.
Proof.
  exists (household 5 3), 59%Z, 17%Z. split; [|split; [reflexivity|vm_compute; lia]].
  split; [reflexivity|]. exists 5%Z. split; [reflexivity|lia].
Qed.
Print Assumptions C145_precedence_refuted.

Theorem C145_errors : forall g e, get_column g = Err e -> e = ValueError \/ e = AssertionError \/ e = TypeError.
Proof. exact column_errors. Qed.
Print Assumptions C145_errors.

(** A list of numbers of residents or of revenues, without a household type, is a
    TypeError; an empty one counts as not given. *)
Theorem C145_lists : forall g l, dget String.eqb g "household_type" = None ->
  (dget String.eqb g "n_residents" = Some (VInts l) -> l <> [] -> get_column g = Err TypeError) /\
  (dget String.eqb g "n_residents" = None -> dget String.eqb g "household_revenue" = Some (VInts l) -> l <> [] -> get_column g = Err TypeError) /\
  (dget String.eqb g "n_residents" = Some (VInts []) -> dget String.eqb g "household_revenue" = Some (VInts []) ->
     dget String.eqb g "year" = Some (VInt 2013) -> get_column g = Ok 3%Z).
Proof.
  intros g l H. unfold get_column, get. rewrite H. cbn [is_int andb].
  split; [|split]; intros E; rewrite E; cbn [truthy].
  - intro N. destruct l; [congruence|]. reflexivity.
  - intros E2 N. rewrite E2. destruct l; [congruence|]. reflexivity.
  - intros E2 E3. rewrite E2, E3. reflexivity.
Qed.
Print Assumptions C145_lists.

Example C145_example :
  get_column [("household_type", VInt 1); ("gender", VInt 2); ("n_residents", VInt 1)] = Ok 49%Z /\
  get_column (household 4 4) = Ok 62%Z /\ best_heading (household 4 4) 62 /\
  get_column [("household_revenue", VInt 1300); ("year", VInt 2013)] = Ok 29%Z /\
  get_column [("year", VInt 2018)] = Ok 4%Z /\
  get_column [("household_type", VInt 1); ("gender", VInt 3)] = Err ValueError /\
  get_column [("n_residents", VInts [1; 2]%Z)] = Err TypeError.
Proof.
  repeat (match goal with |- _ /\ _ => split end; [|]); try reflexivity.
  all: cbv [best_heading]; try (apply (column_iff (household 4 4) 62); [|reflexivity]).
  - split; [intros v H; injection H as <-; exists 4%Z; split; [reflexivity|lia]|].
    split; [discriminate|]. split; [discriminate|]. intros [H _]. discriminate.
Qed.

(** ** C146: ownership *)

(** Reading succeeds exactly when every cell of the column is a number, a dash or
    empty, and every type has both statistics in the column, in a sensible
    range. *)
Theorem C146_succeeds : forall sh g k cells, get_column (remove_time_attributues g) = Ok k -> at_ (sh_columns sh) (Z.to_nat k) cells ->
  ((exists d, parse_ownership sh g = Ok d) <->
   (forall i c, at_ cells i c -> exists x, says c x) /\
   (forall i name, named sh i name -> exists p n, listed sh (Z.to_nat k) i name p n /\ sensible p n)).
Proof. exact parsed_iff. Qed.
Print Assumptions C146_succeeds.

Theorem C146_errors : forall sh g e, parse_ownership sh g = Err e ->
  (forall k, get_column (remove_time_attributues g) = Ok k -> e = IndexError \/ e = ValueError) /\
  (forall e', get_column (remove_time_attributues g) = Err e' -> e = e').
Proof.
  intros sh g e H. split.
  - intros k Hk. exact (parsed_err sh g k e Hk H).
  - intros e' He. unfold parse_ownership in H. rewrite He in H. cbn [bind] in H. congruence.
Qed.
Print Assumptions C146_errors.

(** The dictionary has, for each type, the entries of its copies and nothing
    else. *)
Theorem C146_entries_partial : forall sh g d k, clear_names sh -> parse_ownership sh g = Ok d -> get_column (remove_time_attributues g) = Ok k ->
  NoDup (map fst d) /\
  (forall i name, named sh i name -> exists p n, listed sh (Z.to_nat k) i name p n) /\
  (forall i name p n, listed sh (Z.to_nat k) i name p n -> exists l, ownership p n l /\ reads d name l) /\
  (forall key, In key (map fst d) -> exists i name j, named sh i name /\ (1 <= j)%nat /\ key = copy name j).
Proof. exact parsed_rows. Qed.
Print Assumptions C146_entries_partial.

Lemma ones : forall l, Forall (fun x => 0 <= x <= 1)%Q l -> (forall i x y, at_ l i x -> at_ l (S i) y -> x == 1) ->
  (inject_Z (Z.of_nat (length l)) - 1 <= total l)%Q.
Proof.
  induction l as [|x l IH]; intros F M; [vm_compute; discriminate|]. inversion F as [|? ? X F']; subst.
  specialize (IH F' (fun i a b Ha Hb => M (S i) a b Ha Hb)). unfold total in *. cbn [fold_right length].
  rewrite Nat2Z.inj_succ, <- Z.add_1_r, inject_Z_plus. change (inject_Z 1) with 1%Q. destruct l as [|y l].
  - change (inject_Z (Z.of_nat (@length Q []))) with 0%Q. cbn [fold_right]. lra.
  - specialize (M 0%nat x y eq_refl eq_refl). lra.
Qed.

(** An appliance dictionary with enough appliances of a type owns, on average,
    the number of the sheet; without the number it owns the share, without the
    share nothing. *)
Definition average (p n : option Q) : Q := match p, n with Some _, Some n => n | Some p, None => p | None, _ => 0%Q end.

Theorem C146_average_partial : forall sh g d k i name p n types defaults, clear_names sh ->
  parse_ownership sh g = Ok d -> get_column (remove_time_attributues g) = Ok k ->
  listed sh (Z.to_nat k) i name p n -> name <> "" ->
  (forall s, In s types -> is_closest s (map fst d) name -> s = name) ->
  exists m, (2 <= m)%nat /\ (inject_Z (Z.of_nat m) <= average p n + 2)%Q /\ forall out, get_ownership_from_dict types defaults d = Ok out -> (m <= number_of_type name types)%nat ->
  share_of name types out == average p n.
Proof.
  intros sh g d k i name p n types defaults C H Hk Hl Hne Hc.
  destruct (parsed_rows sh g d k C H Hk) as (_ & _ & R & _). destruct (R i name p n Hl) as (l & O & Rd).
  exists (length l). split; [exact (proj1 O)|]. split.
  { destruct O as [_ O]. unfold average. destruct p as [p|]; [destruct n as [n|]|].
    - destruct O as ((z & Hz & _) & T & F & M). destruct l as [|x l]; [discriminate|].
      inversion F as [|? ? X F']; subst. pose proof (ones l F' (fun i a b Ha Hb => M (S i) a b (Nat.lt_0_succ i) Ha Hb)) as B.
      unfold total in *. cbn [fold_right length] in *. rewrite Nat2Z.inj_succ, <- Z.add_1_r, inject_Z_plus. change (inject_Z 1) with 1%Q. lra.
    - destruct O as [P O]. apply eqQ_list_nth in O as [O _]. rewrite O. change (inject_Z (Z.of_nat (length [p; 0%Q]))) with 2%Q. lra.
    - apply eqQ_list_nth in O as [O _]. rewrite O. vm_compute. discriminate. }
  intros out E Hm.
  assert (Hnil : l <> []) by (intros ->; destruct O as [O _]; simpl in O; lia).
  rewrite (read_total d name l types defaults out Rd Hnil Hne Hc E Hm). destruct O as [_ O]. unfold average.
  destruct p as [p|]; [destruct n as [n|]|].
  - tauto.
  - destruct O as [_ O]. inversion O as [|x ? l' ? X Y]; subst. inversion Y as [|y ? l'' ? X' Y']; subst. inversion Y'; subst.
    unfold total. simpl. lra.
  - inversion O as [|x ? l' ? X Y]; subst. inversion Y as [|y ? l'' ? X' Y']; subst. inversion Y'; subst. unfold total. simpl. lra.
Qed.
Print Assumptions C146_average_partial.

(** Weekday and quarter do not matter. *)
Theorem C146_time : forall sh g t f1 f2 f3 q g', is_dict g -> add_time g t f1 f2 f3 q = Ok g' ->
  parse_ownership sh g' = parse_ownership sh g.
Proof. intros sh g t f1 f2 f3 q g' D H. unfold parse_ownership. rewrite (remove_add _ _ _ _ _ _ _ D H). reflexivity. Qed.
Print Assumptions C146_time.

(** When a type is listed twice, as laptop_computer in the real sheet (mobile
    computers, of which the second row counts the notebooks), the entries of the
    second row replace those of the first but further copies stay: the average
    agrees with neither row. *)
Definition twice : sheet :=
  Sheet [Some "laptop_computer "; Some "laptop_computer"]
    (repeat [] 61 ++ [[Num (2471#10); Num (1458#10)] ++ repeat Blank 49 ++ [Num 97; Num (908#10)]])%list.

Theorem C146_duplicate_refuted : exists sh g d k out types,
  parse_ownership sh g = Ok d /\ get_column (remove_time_attributues g) = Ok k /\
  types = repeat "laptop_computer" 5 /\ get_ownership_from_dict types (repeat 0%Q 5) d = Ok out /\
  (exists i p n, listed sh (Z.to_nat k) i "laptop_computer" p n) /\
  forall i p n, listed sh (Z.to_nat k) i "laptop_computer" p n -> ~ share_of "laptop_computer" types out == average p n.
Proof.
  assert (X : exists d out, parse_ownership twice (household 3 4) = Ok d /\ get_ownership_from_dict (repeat "laptop_computer" 5) (repeat 0%Q 5) d = Ok out /\
    share_of "laptop_computer" (repeat "laptop_computer" 5) out == 1959#1000).
  { eexists. eexists. split; [vm_compute; reflexivity|]. split; vm_compute; reflexivity. }
  destruct X as (d & out & E & Eo & S). exists twice, (household 3 4), d, 61%Z, out, (repeat "laptop_computer" 5).
  split; [exact E|]. split; [reflexivity|]. split; [reflexivity|]. split; [exact Eo|]. split.
  - exists 1%nat, (Some (908#1000))%Q, (Some (1458#1000))%Q. split; [lia|]. exists "laptop_computer". do 3 eexists. split; [reflexivity|]. split; [reflexivity|].
    split; [reflexivity|]. split; [reflexivity|]. split; [eexists; split; [reflexivity|reflexivity]|]. split; [reflexivity|]. eexists. split; [reflexivity|reflexivity].
  - intros i p n (_ & raw & cells & c1 & c2 & Hr & _ & Hc & A1 & S1 & A2 & S2) Eq. rewrite S in Eq. clear S E Eo.
    assert (Hi : i = 0%nat \/ i = 1%nat) by (destruct i as [|[|i]]; auto; unfold at_ in Hr; simpl in Hr; destruct i; discriminate).
    unfold at_ in Hc. vm_compute in Hc. injection Hc as <-.
    destruct Hi as [->| ->]; vm_compute in A1, A2; injection A1 as <-; injection A2 as <-;
    destruct S1 as (y1 & -> & Y1); destruct S2 as (y2 & -> & Y2); cbn [average] in Eq; lra.
Qed.
Print Assumptions C146_duplicate_refuted.

Definition small_sheet : sheet :=
  Sheet [None; Some "tv"; Some "dish washer"; Some "freezer"]
    [[]; []; [Blank; Num 250; Num 80; Dash] ++ repeat Blank 48 ++ [Num 90; Dash; Num 70]]%list.

Example C146_example :
  exists d, parse_ownership small_sheet [("year", VInt 2008)] = Ok d /\
  map (fun kv => (fst kv, Qred (snd kv))) d =
    [("tv_2", 1); ("tv_3", 3#5); ("tv", 9#10); ("dishwasher_2", 0); ("dishwasher", 0); ("freezer_2", 0); ("freezer", 7#10)]%Q /\
  clear_names small_sheet /\
  parse_ownership (Sheet [Some "tv"] [[]; []; [Other "n.a."]]) [("year", VInt 2008)] = Err ValueError /\
  parse_ownership small_sheet [("n_residents", VInt 1)] = Err IndexError.
Proof.
  eexists. split; [vm_compute; reflexivity|]. split; [vm_compute; reflexivity|]. split; [|split; reflexivity].
  assert (N : forall i a, named small_sheet i a -> (i = 1 /\ a = "tv")%nat \/ (i = 2 /\ a = "dishwasher")%nat \/ (i = 3 /\ a = "freezer")%nat).
  { intros i a (_ & raw & H & ->). destruct i as [|[|[|[|i]]]]; unfold at_ in H; cbn in H; try discriminate; try (injection H as <-; cbn; auto).
    destruct i; discriminate. }
  intros i j a b Ha Hb. apply N in Ha, Hb. split.
  - intro E. destruct Ha as [[-> ->]|[[-> ->]|[-> ->]]], Hb as [[-> ->]|[[-> ->]|[-> ->]]]; auto; discriminate.
  - intros k _ E. apply (f_equal no_us) in E. rewrite no_us_app in E. destruct Ha as [[_ ->]|[[_ ->]|[_ ->]]]; discriminate.
Qed.
