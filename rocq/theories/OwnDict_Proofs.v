(** * Reading the copies of a type from a dictionary. *)

From Coq Require Import String List ZArith QArith Bool Arith Lia Lqa Ascii DecimalString DecimalNat.
From Verif Require Import Prelude PreludeFacts SpecBase SpecBaseFacts Appliance_Model Appliance_Spec Appliance_TypeProofs OwnDict_Spec.
Import ListNotations.
Open Scope string_scope.

(** ** Names *)

Lemma digits_no_us : forall u, no_us (NilEmpty.string_of_uint u) = true.
Proof. induction u; simpl; auto. Qed.

Lemma str_no_us : forall n, no_us (str_of_nat n) = true.
Proof. intro n. apply digits_no_us. Qed.

Lemma str_inj : forall a b, str_of_nat a = str_of_nat b -> a = b.
Proof.
  intros a b H. unfold str_of_nat in H.
  assert (E : Some (Nat.to_uint a) = Some (Nat.to_uint b)).
  { rewrite <- (NilEmpty.usu (Nat.to_uint a)), <- (NilEmpty.usu (Nat.to_uint b)), H. reflexivity. }
  injection E as E. rewrite <- (Unsigned.of_to a), <- (Unsigned.of_to b), E. reflexivity.
Qed.

Lemma no_us_app : forall a b, no_us (a ++ "_" ++ b) = false.
Proof. induction a as [|c a IH]; intro b; [reflexivity|]. change (negb (Ascii.eqb c "_") && no_us (a ++ "_" ++ b) = false)%bool. rewrite IH. apply andb_false_r. Qed.

Lemma last_us : forall a b x y, no_us x = true -> no_us y = true -> a ++ "_" ++ x = b ++ "_" ++ y -> a = b /\ x = y.
Proof.
  induction a as [|c a IH]; intros [|c' b] x y Hx Hy E.
  - injection E as E. auto.
  - exfalso. simpl in E. injection E as _ E. rewrite E in Hx. change (String "_" y) with ("_" ++ y) in Hx. rewrite no_us_app in Hx. discriminate.
  - exfalso. simpl in E. injection E as _ E. rewrite <- E in Hy. change (String "_" x) with ("_" ++ x) in Hy. rewrite no_us_app in Hy. discriminate.
  - cbn [append] in E. injection E as Ec E. destruct (IH b x y Hx Hy E) as [-> ->]. subst. auto.
Qed.

Lemma numbered_inj : forall a b i j, a ++ "_" ++ decimal i = b ++ "_" ++ decimal j -> a = b /\ i = j.
Proof.
  intros a b i j E. destruct (last_us a b (decimal i) (decimal j)) as [H1 H2]; auto using (str_no_us i), (str_no_us j).
  split; [exact H1|]. apply str_inj. exact H2.
Qed.

Lemma app_length_s : forall a b : string, String.length (a ++ b) = (String.length a + String.length b)%nat.
Proof. induction a; simpl; auto. Qed.

Lemma numbered_self : forall a k, a <> a ++ "_" ++ decimal k.
Proof. intros a k E. apply (f_equal String.length) in E. rewrite !app_length_s in E. simpl in E. lia. Qed.

(** ** Reading *)

Lemma closest_self : forall name keys, name <> "" -> In name keys -> find_closest_type name keys = Some name.
Proof.
  intros name keys Hne Hin. apply find_closest_iff. repeat split; auto.
  - left. reflexivity.
Qed.

Definition value_at (d : list (string * Q)) (name : string) (k : nat) : Q :=
  match dget String.eqb d (copy name k) with Some q => q | None => 0%Q end.

Definition counted (counter : list (string * nat)) (name : string) : nat :=
  match dget String.eqb counter name with Some c => c | None => 0%nat end.

Lemma read_copies : forall d name defaults types i counter out, name <> "" -> In name (map fst d) ->
  (forall s, In s types -> is_closest s (map fst d) name -> s = name) ->
  from_dict_loop i types defaults d counter = Ok out ->
  map snd (filter (fun x => String.eqb (fst x) name) (combine types out)) =
  map (value_at d name) (seq (S (counted counter name)) (number_of_type name types)).
Proof.
  intros d name defaults types. induction types as [|s types IH]; intros i counter out Hne Hin Hc E.
  - injection E as <-. reflexivity.
  - cbn [from_dict_loop] in E. unfold number_of_type. cbn [filter].
    destruct (String.eqb_spec s name) as [->|N].
    + rewrite (closest_self name (map fst d) Hne Hin) in E.
      destruct (from_dict_loop (S i) types defaults d (dset String.eqb counter name (match dget String.eqb counter name with Some c => S c | None => 1%nat end))) as [o|] eqn:Eo; [|discriminate].
      cbn [bind] in E. injection E as <-. cbn [combine filter fst]. rewrite String.eqb_refl. cbn [map snd length seq].
      f_equal.
      * unfold value_at, counted, copy. destruct (dget String.eqb counter name) as [c|]; reflexivity.
      * rewrite (IH (S i) _ o Hne Hin (fun s' H => Hc s' (or_intror H)) Eo). unfold counted at 1. rewrite dget_dset_same.
        unfold counted. unfold number_of_type. destruct (dget String.eqb counter name) as [c|]; reflexivity.
    + destruct (find_closest_type s (map fst d)) as [t|] eqn:Ef.
      * destruct (from_dict_loop (S i) types defaults d (dset String.eqb counter t (match dget String.eqb counter t with Some c => S c | None => 1%nat end))) as [o|] eqn:Eo; [|discriminate].
        cbn [bind] in E. injection E as <-. cbn [combine filter fst]. destruct (String.eqb_spec s name) as [|_]; [contradiction|].
        rewrite (IH (S i) _ o Hne Hin (fun s' H => Hc s' (or_intror H)) Eo). f_equal. f_equal. unfold counted. rewrite dget_dset_other; [reflexivity|].
        intro. subst t. apply N, Hc; [left; reflexivity|]. apply find_closest_iff. exact Ef.
      * destruct (vget defaults i) as [v|]; [|discriminate]. cbn [bind] in E.
        destruct (from_dict_loop (S i) types defaults d counter) as [o|] eqn:Eo; [|discriminate].
        cbn [bind] in E. injection E as <-. cbn [combine filter fst]. destruct (String.eqb_spec s name) as [|_]; [contradiction|].
        apply (IH (S i) _ o Hne Hin (fun s' H => Hc s' (or_intror H)) Eo).
Qed.

Lemma total_values : forall d name l n a, (forall k, (a < k)%nat -> dget String.eqb d (copy name k) = nth_error l (k - S a)) ->
  (length l <= n)%nat -> total (map (value_at d name) (seq (S a) n)) == total l.
Proof.
  intros d name l n. revert l. induction n as [|n IH]; intros l a H Hl.
  - destruct l; [reflexivity|simpl in Hl; lia].
  - cbn [seq map]. unfold total in *. cbn [fold_right]. unfold value_at at 1. rewrite H by lia. rewrite Nat.sub_diag. destruct l as [|x l].
    + cbn [nth_error]. rewrite (IH [] (S a)); [reflexivity| |simpl; lia]. intros k Hk. rewrite H by lia.
      rewrite !(proj2 (nth_error_None _ _)); [reflexivity|simpl; lia|simpl; lia].
    + cbn [nth_error fold_right]. rewrite (IH l (S a)); [reflexivity| |simpl in Hl; lia]. intros k Hk. rewrite H by lia.
      replace (k - S a)%nat with (S (k - S (S a))) by lia. reflexivity.
Qed.

Theorem read_total : forall d name l types defaults out, reads d name l -> l <> [] -> name <> "" ->
  (forall s, In s types -> is_closest s (map fst d) name -> s = name) ->
  get_ownership_from_dict types defaults d = Ok out -> (length l <= number_of_type name types)%nat ->
  share_of name types out == total l.
Proof.
  intros d name l types defaults out R Hl Hne Hc E Hn. unfold share_of.
  assert (Hin : In name (map fst d)).
  { specialize (R 1%nat (le_n 1)). cbn in R. destruct l as [|x l]; [congruence|]. cbn in R. clear -R. induction d as [|[k v] d IH]; [discriminate|].
    cbn in R |- *. destruct (String.eqb_spec name k) as [->|]; auto. }
  rewrite (read_copies d name defaults types 0 [] out Hne Hin Hc E). apply total_values; [|exact Hn].
  intros k Hk. cbn in Hk |- *. rewrite (R k) by lia. reflexivity.
Qed.
