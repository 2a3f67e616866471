(** * Proofs about the labelled states of the German time of use survey. *)

From Coq Require Import String List ZArith QArith Bool Arith Lia.
From Verif Require Import Prelude PreludeFacts SpecBase SpecBaseFacts Parse_Model Parse_Spec Parse_Proofs Parse_DurProofs Parse_TpmProofs Appliance_Model StateMetric_Model
  Subgroup_NameProofs Matrix_Proofs Activity_LabelProofs GTou_Model GTou_Spec.
Import ListNotations.
Local Open Scope string_scope.

Lemma string_order : total_order String.compare.
Proof.
  split; [exact compare_eq|]. split; [intros x y; apply String.compare_antisym|].
  intros x y z H1 H2. apply compare_lt in H1, H2. apply compare_lt. eapply str_trans; eauto.
Qed.

Lemma nth_error_ext' : forall A (l l' : list A), (forall i, nth_error l i = nth_error l' i) -> l = l'.
Proof.
  induction l as [|x l IH]; intros [|y l'] H; [reflexivity|specialize (H 0%nat); discriminate|specialize (H 0%nat); discriminate|].
  pose proof (H 0%nat) as H0. injection H0 as ->. f_equal. apply IH. intro i. apply (H (S i)).
Qed.

Lemma selected_compress : forall A mask (l : list A), compress mask l = selected mask l.
Proof. induction mask as [|b m IH]; intros [|x l]; try reflexivity. unfold selected. cbn. destruct b; cbn; rewrite IH; reflexivity. Qed.

Lemma meaning_merge : forall V (d : list (Z * V)) c, merge d c = meaning d c.
Proof. induction d as [|[k v] d IH]; intro c; [reflexivity|]. unfold merge. cbn. destruct (Z.eqb c k); [reflexivity|apply IH]. Qed.

Lemma mapM_vget : forall A B (labels : list B) (h : A -> nat) (g : A -> B) r, (forall x, In x r -> at_ labels (h x) (g x)) ->
  mapM (vget labels) (map h r) = Ok (map g r).
Proof.
  induction r as [|x r IH]; intro H; [reflexivity|]. cbn [map mapM]. rewrite (proj2 (vget_ok _ _ _ _) (H x (or_introl eq_refl))). cbn [bind].
  rewrite IH by (intros; apply H; right; auto). reflexivity.
Qed.

Lemma read_labels_map : forall A B (labels : list B) (h : A -> nat) (g : A -> B) raw, (forall r x, In r raw -> In x r -> at_ labels (h x) (g x)) ->
  read_labels labels (map (map h) raw) = Ok (map (map g) raw).
Proof.
  intros A B labels h g. induction raw as [|r raw IH]; intro H; [reflexivity|]. unfold read_labels in *. cbn [map mapM].
  rewrite (mapM_vget _ _ labels h g r) by (intros; eapply H; [left; reflexivity|auto]). cbn [bind]. rewrite IH by (intros; eapply H; [right|]; eauto). reflexivity.
Qed.

(** convert_states with an explicit result. *)
Lemma convert_map : forall A B (cmpA : A -> A -> comparison) (cmpB : B -> B -> comparison), total_order cmpA -> total_order cmpB ->
  forall (mg : A -> option B) (g : A -> B) raw, (exists r x, In r raw /\ In x r) -> (forall r x, In r raw -> In x r -> mg x = Some (g x)) ->
  exists h labels, convert_states cmpA cmpB mg raw = Ok (map (map h) raw, labels) /\ NoDup labels /\
    (forall y, In y labels <-> exists r x, In r raw /\ In x r /\ y = g x) /\
    (forall r x, In r raw -> In x r -> at_ labels (h x) (g x)).
Proof.
  intros A B cmpA cmpB OA OB mg g raw (r0 & x0 & Hr0 & Hx0) Hm.
  destruct (@convert_spec A B cmpA cmpB OA OB mg raw) as (out & labels & E & L1 & L2 & V & S & C).
  { apply in_at in Hr0, Hx0. destruct Hr0 as [p Hp], Hx0 as [i Hi]. exists p, i, x0, r0. auto. }
  { intros p i x (r & Hp & Hi). rewrite (Hm r x (at_in _ _ _ _ Hp) (at_in _ _ _ _ Hi)). discriminate. }
  assert (V' : forall r x, In r raw -> In x r -> at_ labels (index_in cmpB (g x) labels) (g x)).
  { intros r x Hr Hx. apply (index_in_at OB). pose proof (Hm r x Hr Hx) as M. apply in_at in Hr, Hx. destruct Hr as [p Hp], Hx as [i Hi].
    destruct (V p i x) as (k & y & _ & Ey & Hk); [exists r; auto|]. rewrite M in Ey. injection Ey as <-. eapply at_in; eauto. }
  assert (Nd : NoDup labels).
  { apply NoDup_nth_error. intros i j Hi Ej. destruct (nth_error labels i) as [y|] eqn:Ey; [|apply nth_error_None in Ey; lia].
    symmetry in Ej. destruct (Nat.lt_trichotomy i j) as [H|[H|H]]; [|auto|]; exfalso.
    - pose proof (S _ _ _ _ H Ey Ej). rewrite (proj2 (proj1 OB y y) eq_refl) in H0. discriminate.
    - pose proof (S _ _ _ _ H Ej Ey). rewrite (proj2 (proj1 OB y y) eq_refl) in H0. discriminate. }
  exists (fun x => index_in cmpB (g x) labels), labels. split; [|split; [exact Nd|split; [|exact V']]].
  - rewrite E. f_equal. f_equal. apply nth_error_ext'. intro p. rewrite nth_error_map. destruct (nth_error raw p) as [r|] eqn:Er; cbn [option_map].
    + destruct (nth_error out p) as [r'|] eqn:Er'; [|apply nth_error_None in Er'; assert (p < length raw)%nat by (apply nth_error_Some; congruence); lia]. f_equal.
      apply nth_error_ext'. intro i. rewrite nth_error_map. destruct (nth_error r i) as [x|] eqn:Ex; cbn [option_map].
      * destruct (V p i x) as (k & y & (r2 & G1 & G2) & Ey & Hk); [exists r; auto|]. unfold at_ in *. assert (r2 = r') by congruence. subst r2. rewrite G2. f_equal.
        pose proof (Hm r x (at_in _ _ _ _ Er) (at_in _ _ _ _ Ex)) as M. rewrite M in Ey. injection Ey as <-.
        eapply (proj1 (NoDup_nth_error labels) Nd); [apply nth_error_Some; congruence|]. rewrite Hk. symmetry. apply (V' r x (at_in _ _ _ _ Er) (at_in _ _ _ _ Ex)).
      * apply nth_error_None. rewrite (L2 p r r' Er Er'). apply nth_error_None. exact Ex.
    + apply nth_error_None. rewrite L1. apply nth_error_None. exact Er.
  - intro y. split.
    + intro H. apply in_at in H. destruct H as [k Hk]. destruct (C k (at_lt _ _ _ _ Hk)) as (p & i & r' & Hp & Hi).
      destruct (lt_at _ raw p) as (r & Hr); [rewrite <- L1; apply (at_lt _ _ _ _ Hp)|]. destruct (lt_at _ r i) as (x & Hx); [rewrite <- (L2 p r r' Hr Hp); apply (at_lt _ _ _ _ Hi)|].
      destruct (V p i x) as (k' & y' & (r2 & G1 & G2) & Ey & Hk'); [exists r; auto|]. exists r, x. split; [eapply at_in; eauto|]. split; [eapply at_in; eauto|].
      pose proof (Hm r x (at_in _ _ _ _ Hr) (at_in _ _ _ _ Hx)) as M. unfold at_ in *. congruence.
    + intros (r & x & Hr & Hx & ->). eapply at_in, V'; eauto.
Qed.

Definition ren (w : nat) (l : string) : string := if String.eqb l "-" then substring 0 w "other" else l.

Lemma ren_shown : forall w a, (a = "-" -> 5 <= w)%nat -> shown a (ren w a).
Proof.
  intros w a H. unfold ren, shown. destruct (String.eqb_spec a "-") as [E|N]; split; intro X; try congruence.
  specialize (H E). do 5 (destruct w as [|w]; [lia|]). destruct w; reflexivity.
Qed.

Lemma substring_other : forall w, substring 0 w "other" = "other" -> (5 <= w)%nat.
Proof. intros w H. do 5 (destruct w as [|w]; [discriminate|]). lia. Qed.

Definition longest (w : nat) (P : string -> Prop) : Prop := (forall s, P s -> String.length s <= w)%nat /\ (0 < w -> exists s, P s /\ String.length s = w)%nat.

Lemma list_max_in : forall l, (0 < list_max_nat l)%nat -> In (list_max_nat l) l.
Proof.
  induction l as [|x l IH]; cbn; intro H; [lia|]. destruct (Nat.max_spec x (list_max_nat l)) as [[L E]|[L E]]; rewrite E in *; [right; apply IH; lia|left; reflexivity].
Qed.

Lemma label_width_longest : forall l, longest (label_width l) (fun s => In s l).
Proof.
  intro l. unfold label_width. split.
  - intros s H. apply list_max_nat_ge. apply in_map. exact H.
  - intro H. apply list_max_in in H. apply in_map_iff in H. destruct H as (s & E & H). exists s. auto.
Qed.

Lemma read_labels_ren : forall A (labels : list string) (h : A -> nat) (g : A -> string) raw, (forall r x, In r raw -> In x r -> at_ labels (h x) (g x)) ->
  read_labels (rename_dash labels) (map (map h) raw) = Ok (map (map (fun x => ren (label_width labels) (g x))) raw).
Proof.
  intros A labels h g raw H. apply read_labels_map. intros r x Hr Hx. unfold rename_dash. apply at_map. exists (g x). split; [eapply H; eauto|reflexivity].
Qed.

Lemma map2_id_left : forall A B (f : A -> B -> A) a b, length a = length b -> (forall i x y, at_ a i x -> at_ b i y -> f x y = x) -> map2 f a b = a.
Proof.
  induction a as [|x a IH]; intros [|y b] L H; try discriminate; [reflexivity|]. cbn. f_equal; [apply (H 0%nat); reflexivity|]. apply IH; [cbn in L; lia|].
  intros i u v Hu Hv. apply (H (S i)); assumption.
Qed.

Lemma cell2_id_left : forall A B (f : A -> B -> A) a b, length a = length b -> (forall p r r', at_ a p r -> at_ b p r' -> length r = length r') ->
  (forall p i x y, diary a p i x -> diary b p i y -> f x y = x) -> cell2 f a b = a.
Proof.
  intros A B f a b L L2 H. unfold cell2. apply map2_id_left; [exact L|]. intros p r r' Hr Hr'. apply map2_id_left; [eapply L2; eauto|].
  intros i x y Hx Hy. eapply H; eexists; eauto.
Qed.

Lemma sized_cell2 : forall A B C (f : A -> B -> C) n w a b, sized n w a -> sized n w b -> sized n w (cell2 f a b).
Proof.
  intros A B C f n w a b (L1 & S1) (L2 & S2). unfold cell2. split; [rewrite map2_length; lia|]. intros r Hr. apply in_at in Hr. destruct Hr as (p & Hr).
  apply at_map2 in Hr. destruct Hr as (x & y & Hx & Hy & ->). rewrite map2_length, (S1 x), (S2 y); [lia|eapply at_in; eauto|eapply at_in; eauto].
Qed.

Lemma diary_cell2 : forall A B C (f : A -> B -> C) a b p i z, diary (cell2 f a b) p i z <-> exists x y, diary a p i x /\ diary b p i y /\ z = f x y.
Proof.
  intros A B C f a b p i z. unfold diary, cell2. split.
  - intros (r & Hr & Hz). apply at_map2 in Hr. destruct Hr as (x & y & Hx & Hy & ->). apply at_map2 in Hz. destruct Hz as (u & v & Hu & Hv & ->). exists u, v. split; [exists x; auto|split; [exists y; auto|reflexivity]].
  - intros (x & y & (r & Hr & Hx) & (r' & Hr' & Hy) & ->). exists (map2 f r r'). split; apply at_map2; [exists r, r'|exists x, y]; auto.
Qed.

Lemma diary_map : forall A B (f : A -> B) a p i y, diary (map (map f) a) p i y <-> exists x, diary a p i x /\ y = f x.
Proof.
  intros A B f a p i y. unfold diary. split.
  - intros (r & Hr & Hy). apply at_map in Hr. destruct Hr as (r' & Hr' & ->). apply at_map in Hy. destruct Hy as (x & Hx & ->). exists x. eauto.
  - intros (x & (r & Hr & Hx) & ->). exists (map f r). split; apply at_map; eauto.
Qed.

Lemma diary_in : forall A (t : list (list A)) x, (exists r, In r t /\ In x r) <-> exists p i, diary t p i x.
Proof.
  intros A t x. split.
  - intros (r & Hr & Hx). apply in_at in Hr, Hx. destruct Hr as [p Hp], Hx as [i Hi]. exists p, i, r. auto.
  - intros (p & i & r & Hp & Hi). exists r. split; eapply at_in; eauto.
Qed.

Lemma diary_fun : forall A (t : list (list A)) p i x y, diary t p i x -> diary t p i y -> x = y.
Proof. intros A t p i x y (r & H1 & H2) (r' & H3 & H4). unfold at_ in *. congruence. Qed.

Lemma sized_diary : forall A n w (t : list (list A)) p i, sized n w t -> (p < n)%nat -> (i < w)%nat -> exists x, diary t p i x.
Proof.
  intros A n w t p i (L & S) Hp Hi. destruct (lt_at _ t p) as (r & Hr); [lia|]. destruct (lt_at _ r i) as (x & Hx); [rewrite (S r (at_in _ _ _ _ Hr)); lia|]. exists x, r. auto.
Qed.

Lemma diary_sized : forall A n w (t : list (list A)) p i x, sized n w t -> diary t p i x -> (p < n)%nat /\ (i < w)%nat.
Proof.
  intros A n w t p i x (L & S) (r & Hr & Hx). split; [rewrite <- L; apply (at_lt _ _ _ _ Hr)|]. rewrite <- (S r (at_in _ _ _ _ Hr)). apply (at_lt _ _ _ _ Hx).
Qed.

Lemma sized_same : forall A B n w (a : list (list A)) (b : list (list B)) p r r', sized n w a -> sized n w b -> at_ a p r -> at_ b p r' -> length r = length r'.
Proof. intros A B n w a b p r r' (_ & S1) (_ & S2) H1 H2. rewrite (S1 r), (S2 r'); auto; eapply at_in; eauto. Qed.

Lemma sized_map : forall A B (f : A -> B) n w t, sized n w t -> sized n w (map (map f) t).
Proof. intros A B f n w t (L & S). split; [rewrite map_length; exact L|]. intros r Hr. apply in_map_iff in Hr. destruct Hr as (r' & <- & Hr'). rewrite map_length. auto. Qed.

Section Labelled.
Variables (add use : bool) (dict : list (Z * string)) (sv : survey) (mask : list bool) (n w : nat).
Let raw := selected mask (primary sv).
Let o := selected mask (occ sv).
Let dict' := if add then dset Z.eqb dict 0%Z "away" else dict.
Let raw' := if add then cell2 put_away o raw else raw.
Let G c := match meaning dict' c with Some s => s | None => "" end.

Lemma labelled_main : sized n w raw -> sized n w o -> (0 < n)%nat -> (0 < w)%nat -> (forall p i c, diary raw p i c -> meaning dict' c <> None) ->
  exists (h : Z -> nat) labels wd, labelled_states add use dict sv mask = Ok (map (map h) raw', labels) /\
    (forall p i x, diary raw' p i x -> at_ labels (h x) (ren wd (G x))) /\
    longest wd (fun s => exists p i x, diary raw' p i x /\ s = G x) /\
    (forall v, In v (map snd dict') -> In v labels) /\
    (forall y, In y labels -> In y (map snd dict') \/ exists p i x, diary raw' p i x /\ y = ren wd (G x)) /\
    (use = true -> forall p i x p' i' x', diary raw' p i x -> diary raw' p' i' x' -> ren wd (G x) = ren wd (G x') -> h x = h x').
Proof.
  intros Sr So Hn Hw Hm.
  assert (Sr' : sized n w raw') by (unfold raw'; destruct add; [apply sized_cell2|]; assumption).
  assert (Hraw : exists r x, In r raw /\ In x r). { destruct (sized_diary _ _ _ _ 0 0 Sr Hn Hw) as (x & Hx). exists (nth 0 raw []), x. destruct Hx as (r & Hr & Hx). rewrite (nth_error_nth _ _ _ Hr). split; eapply at_in; eauto. }
  assert (Hraw' : exists r x, In r raw' /\ In x r). { destruct (sized_diary _ _ _ _ 0 0 Sr' Hn Hw) as (x & Hx). exists (nth 0 raw' []), x. destruct Hx as (r & Hr & Hx). rewrite (nth_error_nth _ _ _ Hr). split; eapply at_in; eauto. }
  assert (M : forall p i c, diary raw p i c -> meaning dict' c = Some (G c)). { intros p i c Hc. unfold G. specialize (Hm p i c Hc). destruct (meaning dict' c); congruence. }
  assert (Z0 : add = true -> meaning dict' 0%Z = Some "away"). { intro E. unfold dict'. rewrite E. rewrite <- meaning_merge. unfold merge. apply (dget_dset_same _ _ _ Z.eqb_eq). }
  assert (R : forall p i x, diary raw' p i x -> diary raw p i x \/ add = true /\ x = 0%Z).
  { intros p i x Hx. unfold raw' in Hx. destruct add; [|auto]. apply diary_cell2 in Hx. destruct Hx as (b & c & Hb & Hc & ->). unfold put_away. destruct b; auto. }
  assert (M' : forall p i c, diary raw' p i c -> meaning dict' c = Some (G c)). { intros p i c Hc. destruct (R p i c Hc) as [H|[H ->]]; [eauto|]. unfold G. rewrite Z0 by assumption. reflexivity. }
  assert (I : forall (t : list (list Z)) (P : Z -> Prop), (forall p i c, diary t p i c -> P c) -> forall r x, In r t -> In x r -> P x).
  { intros t P H r x Hr Hx. destruct (proj1 (diary_in _ t x)) as (p & i & D); eauto. }
  destruct (convert_map _ _ _ _ Z_order string_order (merge dict') G raw' Hraw') as (h1 & u & E1 & N1 & L1 & V1).
  { apply (I raw' (fun x => merge dict' x = Some (G x))). intros p i c Hc. rewrite meaning_merge. eauto. }
  destruct (convert_map _ _ _ _ Z_order string_order (merge dict') G raw Hraw) as (h2 & u2 & E2 & N2 & L2 & V2).
  { apply (I raw (fun x => merge dict' x = Some (G x))). intros p i c Hc. rewrite meaning_merge. eauto. }
  unfold labelled_states. rewrite !selected_compress. fold raw o. fold dict'. fold raw'. rewrite E1. cbn [bind].
  set (wd := label_width u).
  assert (Lg : longest wd (fun s => exists p i x, diary raw' p i x /\ s = G x)).
  { destruct (label_width_longest u) as (A1 & A2). fold wd in A1, A2. split.
    - intros s (p & i & x & Hx & ->). apply A1. apply L1. destruct Hx as (r & Hr & Hx). exists r, x. repeat split; eapply at_in; eauto.
    - intro H. destruct (A2 H) as (s & Hs & El). exists s. split; [|exact El]. apply L1 in Hs. destruct Hs as (r & x & Hr & Hx & ->).
      destruct (proj1 (diary_in _ raw' x)) as (p & i & D); [eauto|]. exists p, i, x. auto. }
  set (a := map (map (fun x => ren wd (G x))) raw').
  assert (Ra : read_labels (rename_dash u) (map (map h1) raw') = Ok a) by (apply read_labels_ren; exact V1).
  destruct use eqn:Eu.
  - rewrite E2. cbn [bind]. rewrite Ra. cbn [bind]. rewrite (read_labels_ren _ u2 h2 G raw V2). cbn [bind].
    set (w2 := label_width u2). set (b := map (map (fun x => ren w2 (G x))) raw).
    assert (Eab : cell2 (use_second wd) a b = a).
    { assert (Sa : sized n w a) by (apply sized_map; exact Sr'). assert (Sb : sized n w b) by (apply sized_map; exact Sr).
      apply cell2_id_left; [rewrite (proj1 Sa), (proj1 Sb); reflexivity|intros p r r'; apply (sized_same _ _ n w); assumption|].
      intros p i x y Hx Hy. apply diary_map in Hx, Hy. destruct Hx as (c & Hc & ->), Hy as (c' & Hc' & ->). unfold use_second.
      destruct (String.eqb_spec (ren wd (G c)) "other") as [Eo|No]; [|reflexivity]. cbn [andb].
      assert (Cc : c = c').
      { pose proof Hc as Hc2. unfold raw' in Hc2. destruct add eqn:Ea; [|exact (diary_fun _ _ _ _ _ _ Hc2 Hc')]. apply diary_cell2 in Hc2. destruct Hc2 as (h & c2 & Hh & Hc2 & ->).
        assert (c2 = c') by exact (diary_fun _ _ _ _ _ _ Hc2 Hc'). subst c2. destruct h; [reflexivity|]. exfalso. cbn [put_away] in Eo. unfold G in Eo. rewrite Z0 in Eo by reflexivity. discriminate. }
      subst c'. enough (X : ren w2 (G c) = "other") by (rewrite X; reflexivity).
      unfold ren in *. destruct (String.eqb (G c) "-") eqn:Ed; [|exact Eo]. apply substring_other in Eo.
      destruct Lg as (_ & Lg2). destruct (Lg2 ltac:(lia)) as (s & (p1 & i1 & x1 & H1 & ->) & Els).
      assert (5 <= w2)%nat as W2.
      { destruct (label_width_longest u2) as (B1 & _). fold w2 in B1. destruct (R p1 i1 x1 H1) as [K|[K ->]].
        - specialize (B1 (G x1)). rewrite Els in B1. assert (wd <= w2)%nat; [|lia]. apply B1. apply L2. destruct K as (r & Hr & Hx). exists r, x1. repeat split; eapply at_in; eauto.
        - exfalso. unfold G in Els. rewrite Z0 in Els by assumption. cbn in Els. lia. }
      clear - W2. do 5 (destruct w2 as [|w2]; [lia|]). destruct w2; reflexivity. }
    rewrite Eab.
    assert (Ha : exists r x, In r a /\ In x r).
    { destruct Hraw' as (r & x & Hr & Hx). exists (map (fun x => ren wd (G x)) r), (ren wd (G x)). split; [apply in_map; exact Hr|apply (in_map (fun x => ren wd (G x))); exact Hx]. }
    destruct (convert_map _ _ _ _ string_order string_order (@Some string) (fun s => s) a Ha (fun _ _ _ _ => eq_refl)) as (h3 & u3 & E3 & N3 & L3 & V3).
    rewrite E3. cbn [bind].
    exists (fun x => h3 (ren wd (G x))), (u3 ++ filter (fun v => negb (str_in v u3)) (map snd dict'))%list, wd.
    split; [unfold a; rewrite map_map; f_equal; f_equal; apply map_ext; intro; apply map_map|].
    assert (V : forall p i x, diary raw' p i x -> at_ u3 (h3 (ren wd (G x))) (ren wd (G x))).
    { intros p i x (r & Hr & Hx). apply (V3 (map (fun x => ren wd (G x)) r)); [apply in_map; eapply at_in; eauto|apply (in_map (fun x => ren wd (G x))); eapply at_in; eauto]. }
    split; [|split; [exact Lg|split; [|split]]].
    + intros p i x Hx. unfold at_. rewrite nth_error_app1; [eapply V; eauto|]. eapply at_lt, V; eauto.
    + intros v Hv. apply in_or_app. destruct (str_in v u3) eqn:Es; [left|right; apply filter_In; split; [exact Hv|rewrite Es; reflexivity]].
      unfold str_in in Es. apply existsb_exists in Es. destruct Es as (y & Hy & Ey). apply String.eqb_eq in Ey. congruence.
    + intros y Hy. apply in_app_or in Hy. destruct Hy as [Hy|Hy]; [right|left; apply filter_In in Hy; tauto]. apply L3 in Hy. destruct Hy as (r & x & Hr & Hx & ->).
      destruct (proj1 (diary_in _ a x)) as (p & i & D); [eauto|]. apply diary_map in D. destruct D as (c & Hc & ->). exists p, i, c. auto.
    + intros _ p i x p' i' x' H1 H2 E. rewrite E. reflexivity.
  - cbn [bind]. exists h1, (rename_dash u ++ filter (fun v => negb (str_in v (rename_dash u))) (map snd dict'))%list, wd. split; [reflexivity|].
    assert (V : forall p i x, diary raw' p i x -> at_ (rename_dash u) (h1 x) (ren wd (G x))).
    { intros p i x (r & Hr & Hx). unfold rename_dash. apply at_map. exists (G x). split; [apply (V1 r); eapply at_in; eauto|reflexivity]. }
    split; [|split; [exact Lg|split; [|split; [|discriminate]]]].
    + intros p i x Hx. unfold at_. rewrite nth_error_app1; [eapply V; eauto|]. eapply at_lt, V; eauto.
    + intros v Hv. apply in_or_app. destruct (str_in v (rename_dash u)) eqn:Es; [left|right; apply filter_In; split; [exact Hv|rewrite Es; reflexivity]].
      unfold str_in in Es. apply existsb_exists in Es. destruct Es as (y & Hy & Ey). apply String.eqb_eq in Ey. congruence.
    + intros y Hy. apply in_app_or in Hy. destruct Hy as [Hy|Hy]; [right|left; apply filter_In in Hy; tauto].
      unfold rename_dash in Hy. apply in_map_iff in Hy. destruct Hy as (s & <- & Hs). apply L1 in Hs. destruct Hs as (r & x & Hr & Hx & ->).
      destruct (proj1 (diary_in _ raw' x)) as (p & i & D); [eauto|]. exists p, i, x. auto.
Qed.

Lemma labelled_unknown : sized n w raw -> sized n w o -> (use = true \/ add = false) -> (exists p i c, diary raw p i c /\ meaning dict' c = None) ->
  labelled_states add use dict sv mask = Err KeyError.
Proof.
  intros Sr So Hu (p & i & c & Hc & Hm). unfold labelled_states. rewrite !selected_compress. fold raw o. fold dict'. fold raw'.
  assert (X : convert_states Z.compare String.compare (merge dict') raw = Err KeyError).
  { apply convert_missing; [exact Z_order|]. exists p, i, c. rewrite meaning_merge. auto. }
  destruct (diary_sized _ _ _ _ _ _ _ Sr Hc) as (Hp & Hi).
  assert (Y : convert_states Z.compare String.compare (merge dict') raw' = Err KeyError \/ exists q, convert_states Z.compare String.compare (merge dict') raw' = Ok q).
  { destruct (convert_states Z.compare String.compare (merge dict') raw') as [q|e] eqn:E; [eauto|left]. revert E. unfold convert_states.
    assert (exists r x, In r raw' /\ In x r) as (r & x & Hr & Hx).
    { assert (Sr' : sized n w raw') by (unfold raw'; destruct add; [apply sized_cell2|]; assumption). destruct (sized_diary _ _ _ _ p i Sr' Hp Hi) as (x & r & Hr & Hx). exists r, x. split; eapply at_in; eauto. }
    assert (In x (uniq Z.compare (concat raw'))) as Hu'. { apply (uniq_in Z_order). apply in_concat. eauto. }
    destruct (uniq Z.compare (concat raw')) as [|y u] eqn:Eu; [destruct Hu'|]. rewrite <- Eu.
    destruct (mapM (fun x => match merge dict' x with Some y => Ok y | None => Err KeyError end) (uniq Z.compare (concat raw'))) as [ls|e'] eqn:Em; cbn [bind].
    - intro E. exfalso.
      match type of E with bind ?m _ = _ => assert (T : exists q, m = Ok q) end; [|destruct T as (q & T); rewrite T in E; discriminate E].
      apply mapM_ok in Em. destruct Em as (El & _).
      apply mapM_total. intros l Hl. apply in_map_iff in Hl. destruct Hl as (r1 & <- & Hr1). apply mapM_total. intros k Hk. apply in_map_iff in Hk. destruct Hk as (x1 & <- & Hx1).
      assert (I1 : In x1 (uniq Z.compare (concat raw'))) by (apply (uniq_in Z_order); apply in_concat; eauto).
      pose proof (index_in_at Z_order _ _ I1) as A. rewrite nth_error_map. destruct (nth_error ls (index_in Z.compare x1 (uniq Z.compare (concat raw')))) eqn:En; [cbn; eauto|].
      exfalso. apply nth_error_None in En. apply at_lt in A. lia.
    - intro E. assert (e' = e) by congruence. subst e'. f_equal. revert Em. generalize (uniq Z.compare (concat raw')). clear. induction l as [|z l IH]; cbn [mapM]; [discriminate|].
      destruct (merge dict' z); cbn [bind]; [|congruence]. destruct (mapM _ l); cbn [bind]; [discriminate|]. intro; apply IH; congruence. }
  destruct Y as [Y|(q & Y)]; rewrite Y; cbn [bind]; [reflexivity|]. destruct q as [st u]. destruct use; cbn [bind].
  - rewrite X. reflexivity.
  - exfalso. destruct Hu as [?|Ha]; [discriminate|]. unfold raw' in Y. rewrite Ha in Y. congruence.
Qed.
End Labelled.

Lemma labelled_empty : forall add use dict sv mask, concat (selected mask (primary sv)) = [] -> labelled_states add use dict sv mask = Err ValueError.
Proof.
  intros add use dict sv mask H. unfold labelled_states. rewrite !selected_compress.
  assert (X : forall raw d, concat raw = [] -> convert_states Z.compare String.compare (merge d) raw = Err ValueError) by (intros raw d E; unfold convert_states; rewrite E; reflexivity).
  rewrite X; [reflexivity|]. destruct add; [|exact H]. generalize (selected mask (occ sv)). revert H. generalize (selected mask (primary sv)). induction l as [|r l IH]; intros H [|o os]; try reflexivity.
  cbn in *. apply app_eq_nil in H. destruct H as (-> & H). unfold cell2 in *. cbn [map2 concat]. rewrite (IH H os). destruct o; reflexivity.
Qed.
