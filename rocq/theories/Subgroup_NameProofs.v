(** * Proofs about the names and the order of subgroups. *)

From Coq Require Import String Ascii List ZArith NArith Bool Arith Lia Permutation DecimalString DecimalZ Sorted.
From Verif Require Import Prelude PreludeFacts SpecBase Subgroup_Model Subgroup_Spec Subgroup_Proofs.
Import ListNotations.
Local Open Scope string_scope.

(** ** Order of the strings *)
Lemma compare_lt : forall s t, String.compare s t = Lt <-> str_lt s t.
Proof.
  induction s as [|c s IH]; intros [|d t]; cbn [String.compare].
  - split; [discriminate|intro X; inversion X].
  - split; [constructor|reflexivity].
  - split; [discriminate|intro X; inversion X].
  - unfold Ascii.compare. destruct (N.compare_spec (N_of_ascii c) (N_of_ascii d)) as [E|L|G].
    + assert (c = d) as -> by (rewrite <- (ascii_N_embedding c), <- (ascii_N_embedding d), E; reflexivity). rewrite IH. split; [apply str_tail|intro X; inversion X; subst; [lia|assumption]].
    + split; [intros _; apply str_head, L|reflexivity].
    + split; [discriminate|intro X; inversion X; subst; lia].
Qed.

Lemma compare_gt : forall s t, String.compare s t = Gt <-> str_lt t s.
Proof. intros s t. rewrite <- compare_lt, String.compare_antisym. destruct (String.compare t s); cbn; split; congruence. Qed.

Lemma compare_eq : forall s t, String.compare s t = Eq <-> s = t.
Proof.
  intros s t. split; [apply String.compare_eq_iff|]. intros ->. destruct (String.compare t t) eqn:E; [reflexivity|exfalso|exfalso].
  - pose proof (String.compare_antisym t t) as H. rewrite E in H. discriminate.
  - pose proof (String.compare_antisym t t) as H. rewrite E in H. discriminate.
Qed.

Lemma str_trans : forall r s t, str_lt r s -> str_lt s t -> str_lt r t.
Proof.
  intros r s t H. revert t. induction H as [c s|c d s t L|c s t H IH]; intros u K; inversion K; subst; try solve [constructor]; try solve [constructor; lia]; try solve [constructor; assumption]; first [apply str_tail|apply ints_tail]; auto.
Qed.

Lemma str_irrefl : forall s, ~ str_lt s s.
Proof. intros s H. apply compare_lt in H. pose proof (proj2 (compare_eq s s) eq_refl). congruence. Qed.

Lemma str_total : forall s t, str_lt s t \/ s = t \/ str_lt t s.
Proof. intros s t. destruct (String.compare s t) eqn:E; [right; left; apply compare_eq, E|left; apply compare_lt, E|right; right; apply compare_gt, E]. Qed.

Lemma leb_spec : forall s t, String.leb s t = true <-> (str_lt s t \/ s = t).
Proof.
  intros s t. unfold String.leb. destruct (String.compare s t) eqn:E.
  - apply compare_eq in E. split; auto. - apply compare_lt in E. split; auto.
  - apply compare_gt in E. split; [discriminate|]. intros [L| ->]; [destruct (str_irrefl s (str_trans _ _ _ L E))|destruct (str_irrefl t E)].
Qed.

(** ** Sorting *)
Section Sort.
Context {A : Type} (key : A -> string).

Lemma insert_perm : forall x l, Permutation (insert_by key x l) (x :: l).
Proof.
  intros x. induction l as [|y l IH]; cbn [insert_by]; [reflexivity|]. destruct (String.leb (key x) (key y)); [reflexivity|]. rewrite IH. apply perm_swap.
Qed.

Lemma sort_perm : forall l, Permutation (sort_by key l) l.
Proof. induction l as [|x l IH]; cbn [sort_by fold_right]; [reflexivity|]. fold (sort_by key l). rewrite insert_perm, IH. reflexivity. Qed.

Definition kle (x y : A) : Prop := str_lt (key x) (key y) \/ key x = key y.

Lemma insert_sorted : forall x l, StronglySorted kle l -> StronglySorted kle (insert_by key x l).
Proof.
  intros x l H. induction H as [|y l H IH F]; cbn [insert_by]; [repeat constructor|]. destruct (String.leb (key x) (key y)) eqn:E.
  - apply leb_spec in E. constructor; [constructor; assumption|]. constructor; [exact E|]. rewrite Forall_forall in *. intros z Hz. specialize (F z Hz). unfold kle in *.
    destruct E as [E|E], F as [F|F]; [left; eapply str_trans; eassumption|left; rewrite <- F; exact E|left; rewrite E; exact F|right; congruence].
  - assert (L : str_lt (key y) (key x)). { destruct (str_total (key x) (key y)) as [L|[L|L]]; [|  |exact L]; (assert (String.leb (key x) (key y) = true) by (apply leb_spec; auto); congruence). }
    constructor; [exact IH|]. rewrite Forall_forall in *. intros z Hz. apply (Permutation_in _ (insert_perm x l)) in Hz. destruct Hz as [<-|Hz]; [left; exact L|auto].
Qed.

Lemma sort_sorted : forall l, StronglySorted kle (sort_by key l).
Proof. induction l as [|x l IH]; cbn [sort_by fold_right]; [constructor|]. apply insert_sorted, IH. Qed.

Lemma sorted_unique : forall l m, Permutation l m -> NoDup (map key l) -> StronglySorted kle l -> StronglySorted kle m -> l = m.
Proof.
  induction l as [|x l IH]; intros m P N Sl Sm; [apply Permutation_nil in P; auto|]. destruct m as [|y m]; [apply Permutation_sym, Permutation_nil in P; discriminate|].
  inversion Sl as [|? ? Sl' Fl]; inversion Sm as [|? ? Sm' Fm]; subst. cbn [map] in N. inversion N as [|? ? N1 N2]; subst. rewrite Forall_forall in *.
  assert (x = y).
  { assert (Iy : In y (x :: l)) by (apply (Permutation_in _ (Permutation_sym P)); now left). assert (Ix : In x (y :: m)) by (apply (Permutation_in _ P); now left).
    destruct Iy as [->|Iy]; [reflexivity|]. destruct Ix as [->|Ix]; [reflexivity|]. specialize (Fl y Iy). specialize (Fm x Ix). exfalso. apply N1. assert (key x = key y) as ->; [|apply in_map, Iy].
    unfold kle in *. destruct Fl as [L|L]; [|exact L]. destruct Fm as [M|M]; [|auto]. destruct (str_irrefl _ (str_trans _ _ _ L M)). }
  subst y. f_equal. apply IH; try assumption. apply Permutation_cons_inv in P. exact P.
Qed.
End Sort.

Lemma string_order : forall a b, is_dict a -> Permutation a b -> subgroup_string a = subgroup_string b.
Proof.
  intros a b H P. unfold subgroup_string, sort_subgroup. f_equal. f_equal. apply (sorted_unique fst); [|  |apply sort_sorted|apply sort_sorted].
  - rewrite !sort_perm. exact P.
  - apply (Permutation_NoDup (l := map fst a)); [apply Permutation_map, Permutation_sym, sort_perm|exact H].
Qed.

(** ** Splitting *)
Section Split.
Context {A : Type} (sep : A) (eqb : A -> A -> bool).
Hypothesis eqb_eq : forall x y, eqb x y = true <-> x = y.

Fixpoint inter (ls : list (list A)) : list A :=
  match ls with
  | [] => []
  | [l] => l
  | l :: ls' => (l ++ sep :: inter ls')%list
  end.

Fixpoint split (l : list A) : list (list A) :=
  match l with
  | [] => [[]]
  | x :: l' => if eqb x sep then [] :: split l'
               else match split l' with [] => [[x]] | w :: ws => (x :: w) :: ws end
  end.

Lemma split_app : forall w r, ~ In sep w -> split (w ++ sep :: r)%list = w :: split r.
Proof.
  induction w as [|x w IH]; intros r H; cbn [List.app split].
  - rewrite (proj2 (eqb_eq sep sep) eq_refl). reflexivity.
  - destruct (eqb x sep) eqn:E; [apply eqb_eq in E; exfalso; apply H; now left|]. rewrite IH by (intro; apply H; now right). reflexivity.
Qed.

Lemma split_one : forall w, ~ In sep w -> split w = [w].
Proof.
  induction w as [|x w IH]; intro H; cbn [split]; [reflexivity|]. destruct (eqb x sep) eqn:E; [apply eqb_eq in E; exfalso; apply H; now left|]. rewrite IH by (intro; apply H; now right). reflexivity.
Qed.

Lemma split_inter : forall ls, ls <> [] -> (forall l, In l ls -> ~ In sep l) -> split (inter ls) = ls.
Proof.
  induction ls as [|l ls IH]; intros N H; [congruence|]. destruct ls as [|m ls]; cbn [inter]; [apply split_one, H; now left|].
  change (match ls with [] => m | _ :: _ => (m ++ sep :: inter ls)%list end) with (inter (m :: ls)). rewrite split_app by (apply H; now left). rewrite IH; [reflexivity|discriminate|intros; apply H; now right].
Qed.

Lemma inter_inj : forall ls ms, ls <> [] -> ms <> [] -> (forall l, In l ls -> ~ In sep l) -> (forall l, In l ms -> ~ In sep l) -> inter ls = inter ms -> ls = ms.
Proof. intros ls ms N M H K E. rewrite <- (split_inter ls N H), <- (split_inter ms M K), E. reflexivity. Qed.

Lemma inter_cons : forall l ls, ls <> [] -> inter (l :: ls) = (l ++ sep :: inter ls)%list.
Proof. intros l [|m ls] H; [congruence|reflexivity]. Qed.

Lemma inter_app : forall ls ms, ls <> [] -> ms <> [] -> inter (ls ++ ms) = (inter ls ++ sep :: inter ms)%list.
Proof.
  induction ls as [|l ls IH]; intros ms N M; [congruence|]. destruct ls as [|m ls]; [apply (inter_cons l ms M)|].
  change ((l :: m :: ls) ++ ms)%list with (l :: ((m :: ls) ++ ms))%list. rewrite inter_cons by (destruct ms; discriminate). rewrite IH by (discriminate || exact M). rewrite (inter_cons l (m :: ls)) by discriminate.
  rewrite <- app_assoc. reflexivity.
Qed.
End Split.

(** ** Characters *)
Notation chars := list_ascii_of_string.

Lemma chars_app : forall s t, chars (s ++ t) = (chars s ++ chars t)%list.
Proof. induction s as [|c s IH]; intro t; cbn; [reflexivity|]. now rewrite IH. Qed.

Lemma chars_inj : forall s t, chars s = chars t -> s = t.
Proof. intros s t E. rewrite <- (string_of_list_ascii_of_string s), <- (string_of_list_ascii_of_string t), E. reflexivity. Qed.

Lemma chars_concat1 : forall c l, chars (String.concat (String c "") l) = inter c (map chars l).
Proof.
  intros c. induction l as [|s l IH]; [reflexivity|]. destruct l as [|t l]; [reflexivity|]. cbn [map]. rewrite inter_cons by discriminate. cbn [map] in IH. rewrite <- IH.
  change (String.concat (String c "") (s :: t :: l)) with (s ++ String c "" ++ String.concat (String c "") (t :: l)). rewrite !chars_app. reflexivity.
Qed.

Definition under : ascii := "_"%char.

Lemma chars_concat2 : forall l, chars (String.concat "__" l) = match l with [] => [] | s :: l' => (chars s ++ flat_map (fun t => under :: under :: chars t) l')%list end.
Proof.
  induction l as [|s l IH]; [reflexivity|]. destruct l as [|t l]; [cbn; rewrite app_nil_r; reflexivity|].
  change (String.concat "__" (s :: t :: l)) with (s ++ "__" ++ String.concat "__" (t :: l)). rewrite !chars_app, IH. cbn [flat_map]. reflexivity.
Qed.

(** Joining token lists with "__" is the same as joining all the tokens, with an
    empty one in between, with "_". *)
Lemma inter_inter : forall (ls : list (list (list ascii))), ls <> [] -> (forall l, In l ls -> l <> []) ->
  match map (inter under) ls with [] => [] | s :: l' => (s ++ flat_map (fun t => under :: under :: t) l')%list end = inter under (inter [] ls).
Proof.
  induction ls as [|l ls IH]; intros N H; [congruence|]. destruct ls as [|m ls]; cbn [map flat_map]; [rewrite app_nil_r; reflexivity|].
  rewrite (inter_cons [] l (m :: ls)) by discriminate.
  assert (X : inter [] (m :: ls) <> []). { specialize (H m ltac:(right; now left)). destruct ls; cbn; [exact H|destruct m; discriminate]. }
  rewrite (inter_app under l ([] :: inter [] (m :: ls))) by (try discriminate; apply H; now left).
  rewrite (inter_cons under [] (inter [] (m :: ls)) X). rewrite <- IH by (discriminate || (intros; apply H; now right)). cbn [map flat_map List.app]. reflexivity.
Qed.

(** ** Numbers *)
Definition digit_char (c : ascii) : Prop := c <> under /\ c <> ","%char.

Lemma uint_chars : forall u c, In c (chars (NilEmpty.string_of_uint u)) -> digit_char c.
Proof. induction u; cbn; intros c H; try contradiction; (destruct H as [<-|H]; [split; discriminate|auto]). Qed.

Lemma str_chars : forall z c, In c (chars (str_Z z)) -> digit_char c.
Proof.
  intros z c. unfold str_Z. destruct (Z.to_int z) as [u|u]; cbn [NilZero.string_of_int].
  - destruct u; cbn [NilZero.string_of_uint]; try apply uint_chars. cbn. intros [<-|[]]. split; discriminate.
  - cbn. intros [<-|H]; [split; discriminate|]. destruct u; cbn [NilZero.string_of_uint] in H; try apply (uint_chars _ _ H). cbn in H. destruct H as [<-|[]]. split; discriminate.
Qed.

Lemma str_inj : forall x y, str_Z x = str_Z y -> x = y.
Proof.
  intros x y E. unfold str_Z in E.
  assert (P : forall z, Z.to_int z <> Decimal.Pos Decimal.Nil) by (intros z Q; pose proof (DecimalZ.of_to z) as O; rewrite Q in O; cbn in O; subst z; discriminate).
  assert (M : forall z, Z.to_int z <> Decimal.Neg Decimal.Nil) by (intros z Q; pose proof (DecimalZ.of_to z) as O; rewrite Q in O; cbn in O; subst z; discriminate).
  apply (f_equal NilZero.int_of_string) in E. rewrite !NilZero.isi in E by auto. injection E as E. rewrite <- (DecimalZ.of_to x), <- (DecimalZ.of_to y), E. reflexivity.
Qed.

Lemma str_nonempty : forall z, chars (str_Z z) <> [].
Proof.
  intros z. unfold str_Z. destruct (Z.to_int z) as [u|u]; cbn [NilZero.string_of_int]; [|discriminate]. destruct u; discriminate.
Qed.

Lemma value_numbers : forall v, value_string v = String.concat "," (map str_Z (numbers v)).
Proof. intros [z|l]; reflexivity. Qed.

Lemma value_inj : forall v w, numbers v <> [] -> numbers w <> [] -> value_string v = value_string w -> numbers v = numbers w.
Proof.
  intros v w Nv Nw E. rewrite !value_numbers in E. apply (f_equal chars) in E. rewrite !chars_concat1 in E.
  assert (C : forall l s, In s (map chars (map str_Z l)) -> ~ In ","%char s). { intros l s Hs I. apply in_map_iff in Hs. destruct Hs as (t & <- & Ht). apply in_map_iff in Ht. destruct Ht as (z & <- & _). apply str_chars in I. destruct I. congruence. }
  assert (NE : forall l : list Z, l <> [] -> map chars (map str_Z l) <> []) by (intros [|] ?; [congruence|discriminate]).
  apply (inter_inj _ Ascii.eqb Ascii.eqb_eq) in E; [|apply NE, Nv|apply NE, Nw|apply C|apply C].
  rewrite !map_map in E. revert E. generalize (numbers v) (numbers w). clear. induction l as [|x l IH]; intros [|y m] E; try discriminate; [reflexivity|]. cbn [map] in E. injection E as E1 E2.
  f_equal; [apply str_inj, chars_inj, E1|apply IH, E2].
Qed.

Lemma value_chars : forall v c, In c (chars (value_string v)) -> c <> under.
Proof.
  intros v c. rewrite value_numbers, chars_concat1. induction (numbers v) as [|z l IH]; [intros []|]. destruct l as [|y l]; [intro H; apply str_chars in H; apply H|].
  cbn [map] in *. rewrite inter_cons by discriminate. intro H. apply in_app_or in H. destruct H as [H|[<-|H]]; [apply str_chars in H; apply H|discriminate|auto].
Qed.

Lemma value_nonempty : forall v, numbers v <> [] -> chars (value_string v) <> [].
Proof.
  intros v N. rewrite value_numbers, chars_concat1. destruct (numbers v) as [|z [|y l]]; [congruence|cbn; apply str_nonempty|]. cbn [map]. rewrite inter_cons by discriminate. pose proof (str_nonempty z). destruct (chars (str_Z z)); [congruence|discriminate].
Qed.

(** ** Items *)
Definition tokens (kv : string * value) : list (list ascii) := (split under Ascii.eqb (chars (fst kv)) ++ [chars (value_string (snd kv))])%list.

Lemma key_words : forall k, plain_key k -> exists ws, split under Ascii.eqb (chars k) = ws /\ ws <> [] /\ (forall w, In w ws -> w <> [] /\ ~ In under w) /\ chars k = inter under ws.
Proof.
  intros k (words & N & W & ->). rewrite chars_concat1. assert (U : forall w, In w (map chars words) -> w <> [] /\ ~ In under w).
  { intros w H. apply in_map_iff in H. destruct H as (s & <- & Hs). destruct (W s Hs) as (A & B). split; [|exact B]. intro E. apply A. apply chars_inj. exact E. }
  exists (map chars words). split; [|split; [destruct words; [congruence|discriminate]|split; [exact U|reflexivity]]].
  apply (split_inter _ _ Ascii.eqb_eq); [destruct words; [congruence|discriminate]|]. intros l H. apply (U l H).
Qed.

Lemma item_tokens : forall kv, plain_key (fst kv) -> numbers (snd kv) <> [] ->
  chars (item_string kv) = inter under (tokens kv) /\ (forall w, In w (tokens kv) -> w <> [] /\ ~ In under w) /\ tokens kv <> [].
Proof.
  intros [k v] K V. cbn [fst snd] in *. unfold item_string, tokens. cbn [fst snd]. destruct (key_words k K) as (ws & E & N & W & C). rewrite E. split; [|split].
  - rewrite !chars_app, C. rewrite (inter_app under ws [chars (value_string v)]) by (assumption || discriminate). reflexivity.
  - intros w H. apply in_app_or in H. destruct H as [H|[<-|[]]]; [apply W, H|]. split; [apply value_nonempty, V|]. intro I. apply value_chars in I. congruence.
  - destruct ws; discriminate.
Qed.

Lemma tokens_inj : forall kv kv', plain_key (fst kv) -> plain_key (fst kv') -> numbers (snd kv) <> [] -> numbers (snd kv') <> [] -> tokens kv = tokens kv' ->
  fst kv = fst kv' /\ numbers (snd kv) = numbers (snd kv').
Proof.
  intros [k v] [k' v'] K K' V V' E. cbn [fst snd] in *. unfold tokens in E. cbn [fst snd] in E. apply app_inj_tail in E. destruct E as (E1 & E2).
  destruct (key_words k K) as (ws & A & _ & _ & B). destruct (key_words k' K') as (ws' & A' & _ & _ & B'). split.
  - apply chars_inj. rewrite B, B'. congruence.
  - apply value_inj; try assumption. apply chars_inj, E2.
Qed.

Lemma empty_eqb : forall x y : list ascii, (if list_eq_dec ascii_dec x y then true else false) = true <-> x = y.
Proof. intros x y. destruct (list_eq_dec ascii_dec x y); split; congruence. Qed.

Lemma items_inj : forall la lb : subgroup, (forall k v, In (k, v) la -> plain_key k /\ numbers v <> []) -> (forall k v, In (k, v) lb -> plain_key k /\ numbers v <> []) ->
  String.concat "__" (map item_string la) = String.concat "__" (map item_string lb) -> map (fun kv => (fst kv, numbers (snd kv))) la = map (fun kv => (fst kv, numbers (snd kv))) lb.
Proof.
  intros la lb Ha Hb E. apply (f_equal chars) in E.
  assert (J : forall l : subgroup, (forall k v, In (k, v) l -> plain_key k /\ numbers v <> []) -> l <> [] -> chars (String.concat "__" (map item_string l)) = inter under (inter [] (map tokens l))).
  { intros l H N. rewrite <- inter_inter; [|destruct l; [congruence|discriminate]|intros t Ht; apply in_map_iff in Ht; destruct Ht as ([k v] & <- & I); apply item_tokens; apply (H k v I)].
    rewrite chars_concat2. destruct l as [|kv l]; [congruence|]. cbn [map]. assert (K : forall kv', In kv' (kv :: l) -> chars (item_string kv') = inter under (tokens kv')) by (intros [k v] I; apply item_tokens; apply (H k v I)).
    rewrite (K kv) by now left. f_equal. assert (K' : forall kv', In kv' l -> chars (item_string kv') = inter under (tokens kv')) by (intros; apply K; now right). clear K H N. induction l as [|x l IH]; [reflexivity|]. cbn [map flat_map]. rewrite (K' x) by now left. rewrite IH; [reflexivity|]. intros; apply K'; now right. }
  assert (NE : forall l : subgroup, (forall k v, In (k, v) l -> plain_key k /\ numbers v <> []) -> l <> [] -> chars (String.concat "__" (map item_string l)) <> []).
  { intros [|[k v] l] H N; [congruence|]. rewrite chars_concat2. cbn [map]. destruct (H k v (or_introl eq_refl)) as (K & V). unfold item_string. cbn [fst snd]. rewrite !chars_app. destruct (chars k); discriminate. }
  destruct la as [|x la]; [destruct lb as [|y lb]; [reflexivity|]|destruct lb as [|y lb]].
  - exfalso. apply (NE (y :: lb) Hb ltac:(discriminate)). rewrite <- E. reflexivity.
  - exfalso. apply (NE (x :: la) Ha ltac:(discriminate)). rewrite E. reflexivity.
  - rewrite (J (x :: la)), (J (y :: lb)) in E by (assumption || discriminate).
    assert (T : forall l : subgroup, (forall k v, In (k, v) l -> plain_key k /\ numbers v <> []) -> l <> [] -> (forall w, In w (inter [] (map tokens l)) -> ~ In under w) /\ inter [] (map tokens l) <> [] /\ (forall t, In t (map tokens l) -> ~ In [] t)).
    { clear. induction l as [|[k v] l IH]; intros H N; [congruence|]. destruct (H k v (or_introl eq_refl)) as (K & V). destruct (item_tokens (k, v) K V) as (_ & W & NT).
      destruct l as [|y l].
      - cbn [map inter]. split; [intros w Hw; apply W, Hw|]. split; [exact NT|]. intros t [<-|[]] I. apply W in I. destruct I; congruence.
      - destruct IH as (I1 & I2 & I3); [intros; apply H; now right|discriminate|]. cbn [map] in *. rewrite (inter_cons [] (tokens (k, v))) by discriminate. split; [|split].
        + intros w Hw. apply in_app_or in Hw. destruct Hw as [Hw|[<-|Hw]]; [apply W, Hw|intros []|apply I1, Hw].
        + destruct (tokens (k, v)); [congruence|discriminate].
        + intros t [<-|Ht] I; [apply W in I; destruct I; congruence|exact (I3 t Ht I)]. }
    destruct (T (x :: la) Ha ltac:(discriminate)) as (A1 & A2 & A3). destruct (T (y :: lb) Hb ltac:(discriminate)) as (B1 & B2 & B3).
    apply (inter_inj _ Ascii.eqb Ascii.eqb_eq) in E; [|assumption|assumption|assumption|assumption]. apply (inter_inj _ _ empty_eqb) in E; [|discriminate|discriminate|assumption|assumption].
    revert E Ha Hb. generalize (x :: la) (y :: lb). clear. induction l as [|[k v] l IH]; intros [|[k' v'] m] E Ha Hb; try discriminate; [reflexivity|]. cbn [map] in E. injection E as E1 E2.
    destruct (Ha k v (or_introl eq_refl)) as (K & V). destruct (Hb k' v' (or_introl eq_refl)) as (K' & V'). destruct (tokens_inj (k, v) (k', v') K K' V V' E1) as (X & Y). cbn [map fst snd] in *. subst k'. rewrite Y. f_equal. apply IH; [exact E2| |]; intros; [apply Ha|apply Hb]; now right.
Qed.

Lemma string_inj : forall a b, plain a -> plain b -> subgroup_string a = subgroup_string b -> same_numbers a b.
Proof.
  intros a b (Da & Pa) (Db & Pb) E. unfold subgroup_string, sort_subgroup in E.
  assert (S : forall (d : subgroup) kv, In kv (sort_by fst d) <-> In kv d) by (intros d kv; split; apply Permutation_in; [|apply Permutation_sym]; apply sort_perm).
  apply items_inj in E; [|intros k v I; rewrite S in I; apply (Pa k v I)|intros k v I; rewrite S in I; apply (Pb k v I)].
  assert (M : forall (d : subgroup) k ns, In (k, ns) (map (fun kv => (fst kv, numbers (snd kv))) (sort_by fst d)) <-> exists v, has d k v /\ numbers v = ns).
  { intros d k ns. rewrite in_map_iff. split; [intros ([k' v] & Q & I); cbn in Q; injection Q as <- <-; exists v; split; [apply S, I|reflexivity]|].
    intros (v & I & <-). exists (k, v). split; [reflexivity|apply S, I]. }
  intros k ns. rewrite <- !M, E. tauto.
Qed.

Lemma same_string : forall a b, is_dict a -> is_dict b -> same_numbers a b -> subgroup_string a = subgroup_string b.
Proof.
  intros a b Da Db S. set (norm := fun d : subgroup => map (fun kv => (fst kv, VInts (numbers (snd kv)))) d).
  assert (X : forall d, subgroup_string d = subgroup_string (norm d)).
  { intro d. unfold subgroup_string, sort_subgroup, norm. assert (Q : sort_by fst (map (fun kv : string * value => (fst kv, VInts (numbers (snd kv)))) d) = map (fun kv => (fst kv, VInts (numbers (snd kv)))) (sort_by fst d)).
    { induction d as [|x d IH]; [reflexivity|]. cbn [map sort_by fold_right]. unfold sort_by in IH. rewrite IH. generalize (fold_right (insert_by fst) [] d). clear. induction l as [|y l IH]; [reflexivity|]. cbn [map insert_by fst]. destruct (String.leb (fst x) (fst y)); [reflexivity|]. rewrite IH. reflexivity. }
    rewrite Q, map_map. f_equal. apply map_ext. intros [k v]. unfold item_string. cbn [fst snd]. rewrite !value_numbers. reflexivity. }
  assert (N : forall d, is_dict d -> is_dict (norm d)). { intros d H. unfold is_dict, norm in *. rewrite map_map. exact H. }
  rewrite (X a), (X b). apply string_order; [apply N, Da|].
  assert (I : forall d kv, In kv (norm d) <-> exists k ns, kv = (k, VInts ns) /\ exists v, has d k v /\ numbers v = ns).
  { intros d kv. unfold norm. rewrite in_map_iff. split; [intros ([k v] & <- & H); exists k, (numbers v); split; [reflexivity|exists v; auto]|]. intros (k & ns & -> & v & H & <-). exists (k, v). auto. }
  apply NoDup_Permutation; [apply NoDup_map_inv with (f := fst), N, Da|apply NoDup_map_inv with (f := fst), N, Db|].
  intro kv. rewrite !I. split; intros (k & ns & E & H); exists k, ns; (split; [exact E|apply (S k ns), H]).
Qed.

(** ** Order of the subgroups *)
Lemma ints_gtb_spec : forall l m, ints_gtb l m = true <-> ints_lt m l.
Proof.
  induction l as [|x l IH]; intros [|y m]; cbn [ints_gtb]; try (split; [discriminate|intro X; inversion X]).
  - split; [constructor|reflexivity].
  - destruct (Z.eqb_spec x y) as [->|N].
    + rewrite IH. split; [apply ints_tail|intro X; inversion X; subst; [lia|assumption]].
    + rewrite Z.gtb_lt. split; [apply ints_head|intro X; inversion X; subst; [assumption|congruence]].
Qed.

Lemma ints_trans : forall k l m, ints_lt k l -> ints_lt l m -> ints_lt k m.
Proof.
  intros k l m H. revert m. induction H as [y l|x y l m L|x l m H IH]; intros r K; inversion K; subst; try solve [constructor]; try solve [constructor; lia]; try solve [constructor; assumption]; first [apply str_tail|apply ints_tail]; auto.
Qed.

Lemma ints_irrefl : forall l, ~ ints_lt l l.
Proof. induction l as [|x l IH]; intro H; inversion H; subst; [lia|auto]. Qed.

Lemma ints_total : forall l m, ints_lt l m \/ l = m \/ ints_lt m l.
Proof.
  induction l as [|x l IH]; intros [|y m]; [auto|left; constructor|right; right; constructor|]. destruct (Z.lt_total x y) as [L|[->|L]]; [left; now constructor| |right; right; now constructor].
  destruct (IH m) as [K|[->|K]]; [left; now constructor|auto|right; right; now constructor].
Qed.

Lemma value_gtb_spec : forall v w, same_kind v w -> exists b, value_gtb v w = Ok b /\ (b = true <-> value_lt w v).
Proof.
  intros [x|l] [y|m] K; try destruct K; cbn [value_gtb]; eexists; (split; [reflexivity|]).
  - rewrite Z.gtb_lt. split; [now constructor|intro X; inversion X; assumption].
  - rewrite ints_gtb_spec. split; [now constructor|intro X; inversion X; assumption].
Qed.

Lemma value_trans : forall u v w, value_lt u v -> value_lt v w -> value_lt u w.
Proof. intros u v w H K. destruct H; inversion K; subst; constructor; [lia|eapply ints_trans; eassumption]. Qed.

Lemma value_irrefl : forall v, ~ value_lt v v.
Proof. intros v H. inversion H; subst; [lia|eapply ints_irrefl; eassumption]. Qed.

Lemma value_total : forall v w, same_kind v w -> value_lt v w \/ v = w \/ value_lt w v.
Proof.
  intros [x|l] [y|m] K; try destruct K.
  - destruct (Z.lt_total x y) as [L|[->|L]]; [left; now constructor|auto|right; right; now constructor].
  - destruct (ints_total l m) as [L|[->|L]]; [left; now constructor|auto|right; right; now constructor].
Qed.

Lemma kind_sym : forall v w, same_kind v w -> same_kind w v.
Proof. intros [x|l] [y|m]; cbn; auto. Qed.

(** The difference that decides. *)
Definition decides (a b : subgroup) (k : string) : Prop := (exists v, has a k v) /\ lacks b k \/ exists v w, has a k v /\ has b k w /\ value_lt v w.

Section Gt.
Variables a b : subgroup.
Hypothesis Da : is_dict a.
Hypothesis Db : is_dict b.
Hypothesis K : comparable a b.

Lemma agree_get : forall k, agree a b k <-> get a k = get b k.
Proof.
  intro k. split.
  - intro A. destruct (get a k) as [v|] eqn:E.
    + apply (get_has _ _ _ Da) in E. apply A in E. apply (get_has _ _ _ Db) in E. auto.
    + destruct (get b k) as [w|] eqn:F; [|reflexivity]. apply (get_has _ _ _ Db) in F. apply A in F. apply (get_has _ _ _ Da) in F. congruence.
  - intros E v. pose proof (get_has a k v Da) as X. pose proof (get_has b k v Db) as Y. unfold has in *. rewrite <- X, <- Y, E. tauto.
Qed.

Lemma gt_keys_spec : forall keys, StronglySorted (kle (fun k => k)) keys -> (forall k, In k keys -> (exists v, has a k v) \/ (exists v, has b k v)) -> exists r,
  gt_keys keys a b = Ok r /\
  (r = true -> exists k, In k keys /\ (forall k', In k' keys -> str_lt k' k -> agree a b k') /\ decides a b k) /\
  (r = false -> (forall k, In k keys -> agree a b k) \/ exists k, In k keys /\ (forall k', In k' keys -> str_lt k' k -> agree a b k') /\ decides b a k).
Proof.
  induction keys as [|k keys IH]; intros So H.
  - exists false. split; [reflexivity|]. split; [discriminate|]. intros _. left. intros k [].
  - inversion So as [|? ? So' Fo]; subst. rewrite Forall_forall in Fo. cbn [gt_keys].
    assert (First : forall k', In k' (k :: keys) -> str_lt k' k -> agree a b k').
    { intros k' [<-|I] L; [destruct (str_irrefl _ L)|]. destruct (Fo k' I) as [M|M]; [destruct (str_irrefl _ (str_trans _ _ _ L M))|rewrite <- M in L; destruct (str_irrefl _ L)]. }
    destruct (get b k) as [o|] eqn:Eb.
    + destruct (get a k) as [s|] eqn:Ea.
      * apply (get_has _ _ _ Da) in Ea. apply (get_has _ _ _ Db) in Eb. destruct (value_gtb_spec o s (kind_sym _ _ (K k s o Ea Eb))) as (g & G & Gi). rewrite G. cbn [bind]. destruct g.
        { exists true. split; [reflexivity|]. split; [|discriminate]. intros _. exists k. split; [now left|]. split; [exact First|]. right. exists s, o. split; [exact Ea|]. split; [exact Eb|]. apply Gi. reflexivity. }
        destruct (value_gtb_spec s o (K k s o Ea Eb)) as (m & M & Mi). rewrite M. cbn [bind]. destruct m.
        { exists false. split; [reflexivity|]. split; [discriminate|]. intros _. right. exists k. split; [now left|]. split; [exact First|]. right. exists o, s. split; [exact Eb|]. split; [exact Ea|]. apply Mi. reflexivity. }
        assert (s = o). { destruct (value_total s o (K k s o Ea Eb)) as [L|[L|L]]; [apply Gi in L; discriminate|exact L|apply Mi in L; discriminate]. } subst o.
        assert (Ak : agree a b k). { apply agree_get. apply (get_has _ _ _ Da) in Ea. apply (get_has _ _ _ Db) in Eb. congruence. }
        destruct IH as (r & R & T & F); [exact So'|intros; apply H; now right|]. exists r. split; [exact R|]. split.
        { intro E. destruct (T E) as (k0 & I & P & D). exists k0. split; [now right|]. split; [|exact D]. intros k' [<-|I'] L; [exact Ak|auto]. }
        { intro E. destruct (F E) as [P|(k0 & I & P & D)]; [left; intros k' [<-|I']; auto|]. right. exists k0. split; [now right|]. split; [|exact D]. intros k' [<-|I'] L; [exact Ak|auto]. }
      * exists false. split; [reflexivity|]. split; [discriminate|]. intros _. right. exists k. split; [now left|]. split; [exact First|]. left.
        split; [exists o; apply (get_has _ _ _ Db), Eb|apply (get_lacks _ _ Da), Ea].
    + exists true. split; [reflexivity|]. split; [|discriminate]. intros _. exists k. split; [now left|]. split; [exact First|]. left. apply (get_lacks _ _ Db) in Eb. split; [|exact Eb].
      destruct (H k (or_introl eq_refl)) as [X|(v & X)]; [exact X|destruct (Eb v X)].
Qed.

Lemma key_in : forall d k, In k (map fst d) <-> exists v : value, has d k v.
Proof. intros d k. rewrite in_map_iff. split; [intros ([k' v] & <- & I); exists v; exact I|intros (v & I); exists (k, v); auto]. Qed.

Lemma gt_main : exists r, subgroup_gt a b = Ok r /\ (r = true -> ahead a b) /\ (r = false -> ahead b a \/ forall k, agree a b k).
Proof.
  unfold subgroup_gt. destruct (Nat.ltb_spec (length a) (length b)) as [L|L]; [exists true; split; [reflexivity|split; [intros _; now left|discriminate]]|].
  destruct (Nat.ltb_spec (length b) (length a)) as [M|M]; [exists false; split; [reflexivity|split; [discriminate|intros _; left; now left]]|].
  set (keys := sort_by (fun k : string => k) (map fst a ++ map fst b)%list).
  assert (In_keys : forall k, In k keys <-> (exists v, has a k v) \/ (exists v, has b k v)).
  { intro k. unfold keys. rewrite <- !key_in, <- in_app_iff. split; apply Permutation_in; [|apply Permutation_sym]; apply sort_perm. }
  assert (Out : forall k, ~ In k keys -> agree a b k). { intros k N v. split; intro I; exfalso; apply N, In_keys; [left|right]; exists v; exact I. }
  assert (Ext : forall k0, (forall k', In k' keys -> str_lt k' k0 -> agree a b k') -> forall k', str_lt k' k0 -> agree a b k').
  { intros k0 P k' Lt. destruct (in_dec string_dec k' keys) as [I|N]; [apply P; assumption|apply Out, N]. }
  destruct (gt_keys_spec keys) as (r & R & T & F); [apply sort_sorted|intros k I; apply In_keys, I|]. exists r. split; [exact R|]. split.
  - intro E. destruct (T E) as (k & I & P & D). right. split; [lia|]. exists k. split; [apply Ext, P|exact D].
  - intro E. destruct (F E) as [P|(k & I & P & D)].
    + right. intro k. destruct (in_dec string_dec k keys) as [I|N]; [apply P, I|apply Out, N].
    + left. right. split; [lia|]. exists k. split; [|exact D]. intros k' Lt v. symmetry. apply (Ext k P k' Lt).
Qed.
End Gt.

Lemma ahead_irrefl : forall a, is_dict a -> ~ ahead a a.
Proof.
  intros a D [L|(_ & k & _ & [((v & I) & N)|(v & w & I & J & L)])]; [lia|exact (N v I)|]. apply (get_has _ _ _ D) in I, J. assert (v = w) by congruence. subst. exact (value_irrefl _ L).
Qed.

Lemma decides_agree_r : forall a b c k, agree b c k -> decides a b k -> decides a c k.
Proof.
  intros a b c k A [((v & I) & N)|(v & w & I & J & L)]; [left; split; [exists v; exact I|]; intros x X; apply (N x), A, X|]. right. exists v, w. split; [exact I|]. split; [apply A, J|exact L].
Qed.

Lemma decides_agree_l : forall a b c k, agree a b k -> decides b c k -> decides a c k.
Proof.
  intros a b c k A [((v & I) & N)|(v & w & I & J & L)]; [left; split; [exists v; apply A, I|exact N]|]. right. exists v, w. split; [apply A, I|]. split; assumption.
Qed.

Lemma ahead_trans : forall a b c, is_dict b -> ahead a b -> ahead b c -> ahead a c.
Proof.
  intros a b c Db [L|(L & k1 & P1 & D1)] [M|(M & k2 & P2 & D2)]; [left; lia|left; lia|left; lia|]. right. split; [lia|].
  change (decides a b k1) in D1. change (decides b c k2) in D2.
  assert (AT : forall k, agree a b k -> agree b c k -> agree a c k) by (intros k A B v; rewrite (A v); apply B).
  destruct (str_total k1 k2) as [T|[->|T]].
  - exists k1. split; [intros k' Lt; apply AT; [apply P1, Lt|apply P2; eapply str_trans; eassumption]|]. apply (decides_agree_r a b c k1); [apply P2, T|exact D1].
  - exists k2. split; [intros k' Lt; apply AT; auto|]. destruct D1 as [(_ & N)|(v & w & I & J & V)]; [destruct D2 as [((x & X) & _)|(x & y & X & _)]; destruct (N x X)|].
    destruct D2 as [(_ & N)|(x & y & X & Y & V')]; [left; split; [exists v; exact I|exact N]|]. apply (get_has _ _ _ Db) in J, X. assert (w = x) by congruence. subst x. right. exists v, y. split; [exact I|]. split; [exact Y|]. eapply value_trans; eassumption.
  - exists k2. split; [intros k' Lt; apply AT; [apply P1; eapply str_trans; eassumption|apply P2, Lt]|]. apply (decides_agree_l a b c k2); [apply P1, T|exact D2].
Qed.

Lemma comparable_sym : forall a b, comparable a b -> comparable b a.
Proof. intros a b K k v w I J. apply kind_sym. eapply K; eassumption. Qed.

Lemma ahead_agree : forall a b, is_dict a -> is_dict b -> (forall k, agree a b k) -> ~ ahead a b.
Proof.
  intros a b Da Db A [L|(_ & k & _ & [((v & I) & N)|(v & w & I & J & V)])].
  - assert (P : Permutation a b). { apply NoDup_Permutation; [apply NoDup_map_inv with (f := fst), Da|apply NoDup_map_inv with (f := fst), Db|]. intros [k v]. apply A. } apply Permutation_length in P. lia.
  - apply (N v), A, I.
  - apply A in I. apply (get_has _ _ _ Db) in I, J. assert (v = w) by congruence. subst. exact (value_irrefl _ V).
Qed.

Lemma gt_iff : forall a b, is_dict a -> is_dict b -> comparable a b -> exists r, subgroup_gt a b = Ok r /\ (r = true <-> ahead a b).
Proof.
  intros a b Da Db K. destruct (gt_main a b Da Db K) as (r & R & T & F). exists r. split; [exact R|]. split; [exact T|]. intro Ah. destruct r; [reflexivity|]. exfalso.
  destruct (F eq_refl) as [B|A]; [exact (ahead_irrefl a Da (ahead_trans _ _ _ Db Ah B))|exact (ahead_agree a b Da Db A Ah)].
Qed.

Lemma gt_total : forall a b, is_dict a -> is_dict b -> comparable a b -> ahead a b \/ ahead b a \/ forall k, agree a b k.
Proof. intros a b Da Db K. destruct (gt_main a b Da Db K) as ([|] & _ & T & F); [left; auto|]. destruct (F eq_refl); auto. Qed.
