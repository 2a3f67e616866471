(** * Proofs about the population and the column of a subgroup. *)

From Coq Require Import String List ZArith QArith Bool Arith Lia Lqa Ascii.
From Verif Require Import Prelude PreludeFacts SpecBase SpecBaseFacts Subgroup_Model Appliance_Model Appliance_Spec OwnDict_Spec
  Destatis_Model Destatis_Spec.
Import ListNotations.
Open Scope string_scope.

Lemma is_int_has : forall g key z, is_int (get g key) z = true <-> has g key z.
Proof.
  intros g key z. unfold is_int, has, get. destruct (dget String.eqb g key) as [[x|l]|]; split; try congruence.
  - intro H. apply Z.eqb_eq in H. congruence.
  - intro H. apply Z.eqb_eq. congruence.
Qed.

Lemma has_fun : forall g key a b, has g key a -> has g key b -> a = b.
Proof. unfold has. intros. congruence. Qed.

Ltac split_has :=
  repeat match goal with
  | H : is_int (get ?g ?k) ?z = true |- _ => apply is_int_has in H
  | H : (_ && _)%bool = true |- _ => apply andb_true_iff in H; destruct H
  end.

Lemma revenue_heading : forall g r, has g "household_revenue" r -> (0 <= r)%Z -> heading (revenue_column r) g.
Proof.
  intros g r H H0. unfold revenue_column.
  destruct (Z.ltb_spec r 900); [exists r; auto|]. destruct (Z.ltb_spec r 1300); [exists r; auto|].
  destruct (Z.ltb_spec r 1500); [exists r; auto|]. destruct (Z.ltb_spec r 2000); [exists r; auto|].
  destruct (Z.ltb_spec r 2600); [exists r; auto|]. destruct (Z.ltb_spec r 3600); [exists r; auto|].
  destruct (Z.ltb_spec r 5000); exists r; auto.
Qed.

Lemma number_has : forall g key z, number_of (get g key) = Ok z <-> has g key z.
Proof. intros g key z. unfold number_of, has, get. destruct (dget String.eqb g key) as [[x|l]|]; split; congruence. Qed.

Lemma residents_heading : forall g n, has g "n_residents" n -> (0 < n < 6)%Z -> heading (12 + n) g.
Proof.
  intros g n H Hn. assert (n = 1 \/ n = 2 \/ n = 3 \/ n = 4 \/ n = 5)%Z as [->|[->|[->|[->| ->]]]] by lia; cbn; auto.
  exists 5%Z. split; [exact H|lia].
Qed.

Lemma column_fits : forall g k, get_column g = Ok k -> heading k g.
Proof.
  intros g k. unfold get_column.
  destruct (is_int (get g "household_type") 1) eqn:E1; split_has.
  { destruct (get g "gender") as [v|] eqn:Eg.
    - destruct (is_int (Some v) 1) eqn:G1; [rewrite <- Eg in G1; apply is_int_has in G1; intro H; injection H as <-; split; assumption|].
      destruct (is_int (Some v) 2) eqn:G2; [rewrite <- Eg in G2; apply is_int_has in G2; intro H; injection H as <-; split; assumption|discriminate].
    - intro H; injection H as <-. assumption. }
  destruct (is_int (get g "household_type") 2) eqn:E2; split_has; [intro H; injection H as <-; assumption|].
  destruct (is_int (get g "household_type") 3 && is_int (get g "n_residents") 2)%bool eqn:E3; split_has; [intro X; injection X as <-; split; assumption|].
  destruct (is_int (get g "household_type") 3 && is_int (get g "n_residents") 3)%bool eqn:E4; split_has; [intro X; injection X as <-; split; [assumption|exists 3%Z; split; [assumption|lia]]|].
  destruct (is_int (get g "household_type") 3 && is_int (get g "n_residents") 4)%bool eqn:E5; split_has; [intro X; injection X as <-; split; [assumption|exists 4%Z; split; [assumption|lia]]|].
  destruct (is_int (get g "household_type") 4 && is_int (get g "n_residents") 3)%bool eqn:E6; split_has; [intro X; injection X as <-; split; assumption|].
  destruct (is_int (get g "household_type") 4 && is_int (get g "n_residents") 4)%bool eqn:E7; split_has; [intro X; injection X as <-; split; assumption|].
  destruct (is_int (get g "household_type") 4 && is_int (get g "n_residents") 5)%bool eqn:E8; split_has; [intro X; injection X as <-; split; [assumption|exists 5%Z; split; [assumption|lia]]|].
  destruct (truthy (get g "n_residents")).
  { destruct (number_of (get g "n_residents")) as [n|] eqn:En; [|discriminate]. apply number_has in En. cbn [bind].
    destruct ((0 <? n)%Z && (n <? 6)%Z)%bool eqn:Eb; [|discriminate]. apply andb_true_iff in Eb as [B1 B2]. apply Z.ltb_lt in B1, B2.
    intro X; injection X as <-. apply residents_heading; [assumption|lia]. }
  destruct (truthy (get g "household_revenue")).
  { destruct (number_of (get g "household_revenue")) as [r|] eqn:En; [|discriminate]. apply number_has in En. cbn [bind].
    destruct (Z.leb_spec 0 r); [|discriminate]. intro X; injection X as <-. apply revenue_heading; assumption. }
  destruct (truthy (get g "year")); [|discriminate].
  destruct (is_int (get g "year") 2008) eqn:Y1; split_has; [intro X; injection X as <-; assumption|].
  destruct (is_int (get g "year") 2013) eqn:Y2; split_has; [intro X; injection X as <-; assumption|].
  destruct (is_int (get g "year") 2018) eqn:Y3; split_has; [intro X; injection X as <-; assumption|discriminate].
Qed.

(** Columns with a heading. *)
Lemma heading_cases : forall k g, heading k g ->
  In k [2; 3; 4; 13; 14; 15; 16; 17; 27; 28; 29; 30; 31; 32; 33; 34; 47; 48; 49; 52; 58; 59; 61; 62; 63]%Z.
Proof.
  intros k g H. unfold heading in H.
  repeat match type of H with match ?x with _ => _ end => destruct x; try contradiction end; simpl; tauto.
Qed.

Ltac cases_of H := 
  let C := fresh in pose proof (heading_cases _ _ H) as C; cbn [In] in C;
  repeat match type of C with _ \/ _ => destruct C as [C|C] end; [..|contradiction]; subst; cbn [heading] in H.

Lemma heading_fun : forall g j k, heading j g -> heading k g -> precision j = precision k -> j = k.
Proof.
  intros g j k Hj Hk E.
  cases_of Hj; cases_of Hk; try reflexivity; try (vm_compute in E; discriminate); exfalso; clear E;
  unfold at_least, earns in *;
  repeat match goal with H : _ /\ _ |- _ => destruct H | H : exists _, _ |- _ => destruct H end;
  repeat match goal with H1 : has g ?k ?a, H2 : has g ?k ?b |- _ => pose proof (has_fun _ _ _ _ H1 H2); clear H1 end; lia.
Qed.

Lemma has_int : forall g key z, has g key z -> is_int (get g key) z = true.
Proof. intros. apply is_int_has. assumption. Qed.

(** A subgroup with a heading and no odd attribute gets a column with the best
    heading. *)
Lemma truthy_some : forall g key z, has g key z -> (z <> 0)%Z -> truthy (get g key) = true.
Proof. intros g key z H N. unfold truthy, get. rewrite H. apply negb_true_iff, Z.eqb_neq. exact N. Qed.

Lemma no_int : forall g key z, ~ has g key z -> is_int (get g key) z = false.
Proof. intros g key z H. destruct (is_int (get g key) z) eqn:E; [|reflexivity]. apply is_int_has in E. contradiction. Qed.

Lemma has_dec : forall g key z, {has g key z} + {~ has g key z}.
Proof.
  intros g key z. destruct (is_int (get g key) z) eqn:E; [left; apply is_int_has; assumption|].
  right. intro H. apply has_int in H. congruence.
Qed.

Ltac use H := rewrite (has_int _ _ _ H) in *.

(** What [get_column] does, with relations in place of tests. *)
Lemma prec_le : forall k, (precision k <= 4)%nat.
Proof. intro k. unfold precision. repeat match goal with |- context[if ?b then _ else _] => destruct b end; lia. Qed.

Lemma family_absent : forall g, (forall k, In k [47; 48; 49; 52; 58; 59; 61; 62; 63]%Z -> ~ heading k g) ->
  forall c, heading c g -> (precision c <= 2)%nat.
Proof.
  intros g H c Hc. pose proof (heading_cases _ _ Hc) as C.
  assert (D : In c [2; 3; 4; 13; 14; 15; 16; 17; 27; 28; 29; 30; 31; 32; 33; 34]%Z \/ In c [47; 48; 49; 52; 58; 59; 61; 62; 63]%Z) by (cbn [In] in *; tauto).
  destruct D as [D|D]; [|exfalso; exact (H c D Hc)]. clear -D. cbn [In] in D.
  repeat match type of D with _ \/ _ => destruct D as [D|D] end; [..|contradiction]; subst; vm_compute; lia.
Qed.

Lemma best_column : forall g, plain g -> (exists c, heading c g) -> exists k, get_column g = Ok k /\ best_heading g k.
Proof.
  intros g (P1 & P2 & P3 & P4) (c0 & Hc0).
  assert (Best : forall k, get_column g = Ok k -> (forall c, heading c g -> (precision c <= precision k)%nat) -> exists k, get_column g = Ok k /\ best_heading g k).
  { intros k E B. exists k. split; [exact E|]. split; [apply column_fits; exact E|exact B]. }
  destruct (has_dec g "household_type" 1) as [T1|T1].
  { destruct (get g "gender") as [v|] eqn:Eg.
    - destruct (P3 v Eg) as [->| ->].
      + apply (Best 48%Z); [unfold get_column; rewrite (has_int _ _ _ T1), Eg; reflexivity|intros; apply prec_le].
      + apply (Best 49%Z); [unfold get_column; rewrite (has_int _ _ _ T1), Eg; reflexivity|intros; apply prec_le].
    - apply (Best 47%Z); [unfold get_column; rewrite (has_int _ _ _ T1), Eg; reflexivity|].
      intros c Hc. unfold get in Eg. cases_of Hc; try (vm_compute; lia); destruct Hc as [_ Hc]; unfold has in Hc; congruence. }
  assert (N48 : forall c, heading c g -> (precision c <= 3)%nat).
  { intros c Hc. cases_of Hc; try (vm_compute; lia); destruct Hc as [Hc _]; contradiction. }
  destruct (has_dec g "household_type" 2) as [T2|T2].
  { apply (Best 52%Z); [unfold get_column; rewrite (no_int _ _ _ T1), (has_int _ _ _ T2); reflexivity|exact N48]. }
  destruct (get g "n_residents") as [v|] eqn:En.
  2:{ assert (Nn : forall n, ~ has g "n_residents" n) by (intros n Hn; unfold has in Hn; unfold get in En; congruence).
      assert (Low : forall c, heading c g -> (precision c <= 1)%nat).
      { intros c Hc. cases_of Hc; try (vm_compute; lia); exfalso; unfold at_least in Hc;
        repeat match goal with H : _ /\ _ |- _ => destruct H | H : exists _, _ |- _ => destruct H end; try contradiction; eapply Nn; eassumption. }
      destruct (get g "household_revenue") as [v|] eqn:Er.
      - destruct (P2 v Er) as (r & -> & Hr).
        apply (Best (revenue_column r)).
        + unfold get_column. rewrite (no_int _ _ _ T1), (no_int _ _ _ T2), En, Er. cbn [is_int truthy]. rewrite !andb_false_r.
          replace (Z.eqb r 0) with false by (symmetry; apply Z.eqb_neq; lia). cbn [negb number_of bind].
          destruct (Z.leb_spec 0 r); [reflexivity|lia].
        + intros c Hc. specialize (Low c Hc). unfold revenue_column.
          repeat match goal with |- context[if ?b then _ else _] => destruct b end; vm_compute precision; exact Low.
      - assert (Ny : forall c, heading c g -> In c [2; 3; 4]%Z).
        { intros c Hc. cases_of Hc; try (simpl; tauto); exfalso; unfold at_least, earns, has in *; unfold get in *;
          repeat match goal with H : _ /\ _ |- _ => destruct H | H : exists _, _ |- _ => destruct H end; congruence. }
        assert (G : forall y, has g "year" y -> (y <> 0)%Z -> get_column g =
          if is_int (get g "year") 2008 then Ok 2%Z else if is_int (get g "year") 2013 then Ok 3%Z else if is_int (get g "year") 2018 then Ok 4%Z
          else Err ValueError).
        { intros y Hy Hz. unfold get_column. rewrite (no_int _ _ _ T1), (no_int _ _ _ T2), En, Er. cbn [is_int truthy]. rewrite !andb_false_r.
          rewrite (truthy_some _ _ _ Hy Hz). reflexivity. }
        assert (B0 : forall k, In k [2; 3; 4]%Z -> forall c, heading c g -> (precision c <= precision k)%nat).
        { intros k Hk c Hc. apply Ny in Hc. clear -Hk Hc. cbn [In] in *.
          repeat match goal with H : _ \/ _ |- _ => destruct H end; try contradiction; subst; vm_compute; lia. }
        pose proof (Ny c0 Hc0) as [<-|[<-|[<-|[]]]]; cbn [heading] in Hc0.
        + apply (Best 2%Z); [rewrite (G _ Hc0) by lia; rewrite (has_int _ _ _ Hc0); reflexivity|apply B0; simpl; tauto].
        + apply (Best 3%Z); [rewrite (G _ Hc0) by lia; unfold is_int, get; rewrite !Hc0; reflexivity|apply B0; simpl; tauto].
        + apply (Best 4%Z); [rewrite (G _ Hc0) by lia; unfold is_int, get; rewrite !Hc0; reflexivity|apply B0; simpl; tauto]. }
  destruct (P1 v En) as (n & -> & Hn).
  assert (Hh : has g "n_residents" n) by exact En.
  assert (Fam : forall k, get_column g = Ok k -> precision k = 3%nat -> exists k, get_column g = Ok k /\ best_heading g k).
  { intros k E Hk. apply (Best k E). intros c Hc. rewrite Hk. apply N48. exact Hc. }
  assert (Base : get_column g = (if is_int (get g "household_type") 3 && (n =? 2)%Z then Ok 58%Z
     else if is_int (get g "household_type") 3 && (n =? 3)%Z then Ok 59%Z
     else if is_int (get g "household_type") 3 && (n =? 4)%Z then Ok 59%Z
     else if is_int (get g "household_type") 4 && (n =? 3)%Z then Ok 61%Z
     else if is_int (get g "household_type") 4 && (n =? 4)%Z then Ok 62%Z
     else if is_int (get g "household_type") 4 && (n =? 5)%Z then Ok 63%Z
     else Ok (12 + n)%Z)).
  { unfold get_column. rewrite (no_int _ _ _ T1), (no_int _ _ _ T2), En. cbn [is_int truthy number_of bind].
    replace (Z.eqb n 0) with false by (symmetry; apply Z.eqb_neq; lia). cbn [negb].
    replace ((0 <? n)%Z && (n <? 6)%Z)%bool with true by (symmetry; apply andb_true_iff; rewrite !Z.ltb_lt; lia). reflexivity. }
  assert (Last : get_column g = Ok (12 + n)%Z -> (forall k, In k [47; 48; 49; 52; 58; 59; 61; 62; 63]%Z -> ~ heading k g) -> exists k, get_column g = Ok k /\ best_heading g k).
  { intros E F. apply (Best _ E). intros c Hc. pose proof (family_absent g F c Hc) as B.
    assert (n = 1 \/ n = 2 \/ n = 3 \/ n = 4 \/ n = 5)%Z as [X|[X|[X|[X|X]]]] by lia; rewrite X; exact B. }
  destruct (has_dec g "household_type" 3) as [T3|T3].
  { rewrite (has_int _ _ _ T3) in Base. cbn [andb] in Base.
    assert (n = 1 \/ n = 2 \/ n = 3 \/ n = 4 \/ n = 5)%Z as [X|[X|[X|[X|X]]]] by lia; subst n; cbn in Base.
    - assert (F4 : is_int (get g "household_type") 4 = false) by (apply no_int; intro T; pose proof (has_fun _ _ _ _ T3 T); lia).
      rewrite F4 in Base. cbn in Base. apply Last; [exact Base|]. intros k Hk Hd. cbn [In] in Hk.
      repeat match type of Hk with _ \/ _ => destruct Hk as [Hk|Hk] end; [..|contradiction]; subst; cbn [heading] in Hd; unfold at_least in Hd;
      repeat match goal with H : _ /\ _ |- _ => destruct H | H : exists _, _ |- _ => destruct H end;
      repeat match goal with H1 : has g ?k ?a, H2 : has g ?k ?b |- _ => pose proof (has_fun _ _ _ _ H1 H2); clear H1 end; lia.
    - exact (Fam _ Base eq_refl).
    - exact (Fam _ Base eq_refl).
    - exact (Fam _ Base eq_refl).
    - exfalso. apply P4. split; assumption. }
  rewrite (no_int _ _ _ T3) in Base. cbn [andb] in Base.
  destruct (has_dec g "household_type" 4) as [T4|T4].
  { rewrite (has_int _ _ _ T4) in Base. cbn [andb] in Base.
    assert (n = 1 \/ n = 2 \/ n = 3 \/ n = 4 \/ n = 5)%Z as [X|[X|[X|[X|X]]]] by lia; subst n; cbn in Base;
    try exact (Fam _ Base eq_refl);
    (apply Last; [exact Base|]; intros k Hk Hd; cbn [In] in Hk;
      repeat match type of Hk with _ \/ _ => destruct Hk as [Hk|Hk] end; [..|contradiction]; subst; cbn [heading] in Hd; unfold at_least in Hd;
      repeat match goal with H : _ /\ _ |- _ => destruct H | H : exists _, _ |- _ => destruct H end; try contradiction;
      repeat match goal with H1 : has g ?k ?a, H2 : has g ?k ?b |- _ => pose proof (has_fun _ _ _ _ H1 H2); clear H1 end; lia). }
  rewrite (no_int _ _ _ T4) in Base. cbn [andb] in Base. apply Last; [exact Base|].
  intros k Hk Hd; cbn [In] in Hk.
  repeat match type of Hk with _ \/ _ => destruct Hk as [Hk|Hk] end; [..|contradiction]; subst; cbn [heading] in Hd;
  repeat match goal with H : _ /\ _ |- _ => destruct H end; contradiction.
Qed.

Lemma column_iff : forall g k, plain g -> (get_column g = Ok k <-> best_heading g k).
Proof.
  intros g k P. split.
  - intro E. destruct (best_column g P (ex_intro _ k (column_fits g k E))) as (k' & E' & B). congruence.
  - intros [H B]. destruct (best_column g P (ex_intro _ k H)) as (k' & E & H' & B').
    assert (k = k') as ->; [|exact E]. apply (heading_fun g); auto. specialize (B k' H'). specialize (B' k H). lia.
Qed.

Lemma column_errors : forall g e, get_column g = Err e -> e = ValueError \/ e = AssertionError \/ e = TypeError.
Proof.
  intros g e. unfold get_column.
  repeat match goal with
  | |- context[if ?b then _ else _] => destruct b
  | |- context[match ?x with Some _ => _ | None => _ end] => destruct x
  | |- context[number_of ?v] => unfold number_of; destruct v as [[?|?]|]; cbn [bind]
  end; intro H; try discriminate; injection H as <-; auto.
Qed.

Lemma column_plain_error : forall g e, plain g -> get_column g = Err e -> e = ValueError.
Proof.
  intros g e (P1 & P2 & P3 & P4). unfold get_column, get.
  destruct (dget String.eqb g "n_residents") as [v|].
  - destruct (P1 v eq_refl) as (n & -> & Hn). cbn [truthy number_of bind].
    replace (Z.eqb n 0) with false by (symmetry; apply Z.eqb_neq; lia). cbn [negb].
    replace ((0 <? n)%Z && (n <? 6)%Z)%bool with true by (symmetry; apply andb_true_iff; rewrite !Z.ltb_lt; lia).
    repeat match goal with
    | |- context[if ?b then _ else _] => destruct b
    | |- context[match ?x with Some _ => _ | None => _ end] => destruct x
    end; intro H; try discriminate; congruence.
  - cbn [truthy]. destruct (dget String.eqb g "household_revenue") as [v|].
    + destruct (P2 v eq_refl) as (r & -> & Hr). cbn [truthy number_of bind].
      destruct (Z.leb_spec 0 r); [|lia].
      repeat match goal with
      | |- context[if ?b then _ else _] => destruct b
      | |- context[match ?x with Some _ => _ | None => _ end] => destruct x
      end; intro X; try discriminate; congruence.
    + cbn [truthy].
      repeat match goal with
      | |- context[if ?b then _ else _] => destruct b
      | |- context[match ?x with Some _ => _ | None => _ end] => destruct x
      end; intro X; try discriminate; congruence.
Qed.
