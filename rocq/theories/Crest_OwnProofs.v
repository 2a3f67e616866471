(** * Proofs about the ownership dictionary of CREST. *)

From Coq Require Import Ascii String List ZArith QArith Bool Arith Lia Lqa DecimalString DecimalNat.
From Verif Require Import Prelude PreludeFacts SpecBase SpecBaseFacts Appliance_Model Appliance_Spec Appliance_TypeProofs
  OwnDict_Spec OwnDict_Proofs Crest_Model Crest_Spec.
Import ListNotations.
Open Scope string_scope.

Lemma copy_inj : forall types s t j k, no_numbered types -> In s types -> In t types -> (1 <= j)%nat -> (1 <= k)%nat ->
  copy s j = copy t k -> s = t /\ j = k.
Proof.
  intros types s t j k [_ N] Hs Ht Hj Hk E. unfold copy in E.
  destruct (Nat.eqb_spec j 1) as [->|J]; destruct (Nat.eqb_spec k 1) as [->|K].
  - auto.
  - exfalso. apply (N s t k Hs Ht ltac:(lia)). unfold copy. apply Nat.eqb_neq in K. rewrite K. exact E.
  - exfalso. apply (N t s j Ht Hs ltac:(lia)). unfold copy. apply Nat.eqb_neq in J. rewrite J. symmetry. exact E.
  - apply numbered_inj in E. exact E.
Qed.

(** Probabilities of the appliances of a type, in order. *)
Definition occ (t : string) (l : list (string * Q)) : list Q := map snd (filter (fun x => String.eqb (fst x) t) l).

Lemma occ_app : forall t l m, occ t (l ++ m)%list = (occ t l ++ occ t m)%list.
Proof. intros. unfold occ. rewrite filter_app, map_app. reflexivity. Qed.
Lemma occ_length : forall t l, (length (occ t l) <= length l)%nat.
Proof. intros. unfold occ. rewrite map_length. induction l as [|x l IH]; simpl; [lia|]. destruct (String.eqb (fst x) t); simpl; lia. Qed.
Lemma occ_one : forall t p, occ t [(t, p)] = [p].
Proof. intros. unfold occ. simpl. rewrite String.eqb_refl. reflexivity. Qed.
Lemma occ_other : forall s t p, s <> t -> occ s [(t, p)] = [].
Proof. intros s t p N. unfold occ. simpl. destruct (String.eqb_spec t s); [congruence|reflexivity]. Qed.

Lemma dmem_get : forall (d : list (string * Q)) k, dmem String.eqb d k = match dget String.eqb d k with Some _ => true | None => false end.
Proof. reflexivity. Qed.

Lemma dset_fresh : forall (d : list (string * Q)) k v, dget String.eqb d k = None -> length (dset String.eqb d k v) = S (length d).
Proof.
  induction d as [|[k' v'] d IH]; intros k v H; [reflexivity|]. cbn in H |- *. destruct (String.eqb k k'); [discriminate|].
  cbn [length]. rewrite (IH k v H). reflexivity.
Qed.

(** The while loop finds the next copy. *)
Lemma free_copy : forall d t l fuel c, reads d t l -> (1 <= c)%nat -> (c <= S (length l))%nat -> (S (length l) <= fuel + c)%nat ->
  free_name fuel d t c (copy t c) = Ok (copy t (S (length l))).
Proof.
  intros d t l. induction fuel as [|f IH]; intros c R H1 Hc Hf.
  - assert (c = S (length l)) by lia. subst c. cbn [free_name]. rewrite dmem_get, (R (S (length l))) by lia.
    rewrite (proj2 (nth_error_None _ _)) by lia. reflexivity.
  - cbn [free_name]. rewrite dmem_get, (R c) by lia. destruct (nth_error l (c - 1)) as [x|] eqn:E.
    + assert (c - 1 < length l)%nat by (apply nth_error_Some; rewrite E; discriminate).
      replace (t ++ "_" ++ str_of_nat (S c)) with (copy t (S c)).
      * apply IH; [exact R|lia|lia|lia].
      * unfold copy. destruct (Nat.eqb_spec (S c) 1); [lia|]. reflexivity.
    + apply nth_error_None in E. replace c with (S (length l)) by lia. reflexivity.
Qed.

Lemma copy1 : forall t, copy t 1 = t. Proof. reflexivity. Qed.

Lemma ownership_spec : forall types, no_numbered types -> forall l pre d,
  (forall x, In x l -> In (fst x) types) ->
  (forall s, In s types -> reads d s (occ s pre)) -> length d = length pre ->
  exists d', ownership_loop d l = Ok d' /\ (forall s, In s types -> reads d' s (occ s (pre ++ l)%list)) /\ length d' = (length pre + length l)%nat.
Proof.
  intros types N. induction l as [|[t p] l IH]; intros pre d Hl R L.
  - exists d. split; [reflexivity|]. rewrite app_nil_r. split; [exact R|]. simpl. lia.
  - cbn [ownership_loop]. pose proof (Hl _ (or_introl eq_refl)) as Ht. cbn in Ht.
    change (free_name (length d) d t 1 t) with (free_name (length d) d t 1 (copy t 1)). rewrite (free_copy d t (occ t pre)); [|exact (R t Ht)|lia|lia|rewrite L; pose proof (occ_length t pre); lia].
    cbn [bind]. set (m := length (occ t pre)).
    destruct (IH (pre ++ [(t, p)])%list (dset String.eqb d (copy t (S m)) p)) as (d' & E & R' & L').
    + intros x Hx. apply Hl. right. exact Hx.
    + intros s Hs k Hk. destruct (string_dec (copy s k) (copy t (S m))) as [Ec|Nc].
      * apply (copy_inj types s t k (S m) N Hs Ht Hk ltac:(lia)) in Ec as [-> ->].
        rewrite (PreludeFacts.dget_dset_same _ _ _ String.eqb_eq). rewrite occ_app, occ_one. unfold m.
        rewrite nth_error_app2 by lia. replace (S (length (occ t pre)) - 1 - length (occ t pre))%nat with 0%nat by lia. reflexivity.
      * rewrite (PreludeFacts.dget_dset_other _ _ _ String.eqb_eq) by exact Nc. rewrite (R s Hs k Hk). rewrite occ_app.
        destruct (string_dec s t) as [->|Ns]; [|rewrite occ_other, app_nil_r by exact Ns; reflexivity]. rewrite occ_one.
        destruct (lt_dec (k - 1) m) as [Lt|Ge]; [rewrite nth_error_app1; [reflexivity|exact Lt]|].
        assert (k <> S m) by (intro; subst k; apply Nc; reflexivity).
        rewrite !(proj2 (nth_error_None _ _)); [reflexivity|rewrite List.app_length; simpl; fold m; lia|fold m; lia].
    + rewrite dset_fresh; [rewrite L, List.app_length; simpl; lia|]. rewrite (R t Ht) by lia. apply nth_error_None. unfold m. lia.
    + exists d'. split; [exact E|]. rewrite <- app_assoc in R'. split; [exact R'|]. rewrite L', List.app_length. simpl. lia.
Qed.

Lemma get_key : forall (d : list (string * Q)) k v, dget String.eqb d k = Some v -> In k (map fst d).
Proof. intros d k v H. apply (PreludeFacts.dget_in _ _ _ String.eqb_eq) in H. apply in_map with (f := fst) in H. exact H. Qed.

Lemma read_back : forall all d types defaults, (forall t, In t types -> t <> "") ->
  (forall x, In x all -> In (fst x) types) -> (forall s, In s types -> reads d s (occ s all)) ->
  forall l pre i counter, all = (pre ++ l)%list -> (forall s, counted counter s = length (occ s pre)) ->
  from_dict_loop i (map fst l) defaults d counter = Ok (map snd l).
Proof.
  intros all d types defaults Ne Ha R. induction l as [|[t p] l IH]; intros pre i counter E C; [reflexivity|].
  assert (Ht : In t types) by (apply (Ha (t, p)); rewrite E; apply in_or_app; right; left; reflexivity).
  assert (Hocc : nth_error (occ t all) (length (occ t pre)) = Some p).
  { rewrite E. change ((t, p) :: l) with ([(t, p)] ++ l)%list. rewrite !occ_app, occ_one. rewrite nth_error_app2 by lia. rewrite Nat.sub_diag. reflexivity. }
  cbn [map fst snd from_dict_loop].
  assert (Hin : In t (map fst d)).
  { pose proof (R t Ht 1%nat (le_n 1)) as R1. rewrite copy1 in R1. destruct (occ t all) as [|q o] eqn:Eo; [destruct (length (occ t pre)); discriminate|].
    cbn in R1. exact (get_key _ _ _ R1). }
  rewrite (closest_self t (map fst d) (Ne t Ht) Hin).
  set (n := match dget String.eqb counter t with Some c => S c | None => 1%nat end).
  assert (En : n = S (length (occ t pre))).
  { specialize (C t). unfold counted in C. unfold n. destruct (dget String.eqb counter t); lia. }
  assert (Ev : match dget String.eqb d (if Nat.eqb n 1 then t else t ++ "_" ++ str_of_nat n) with Some q => q | None => 0%Q end = p).
  { change (if Nat.eqb n 1 then t else t ++ "_" ++ str_of_nat n) with (copy t n). rewrite (R t Ht n) by lia. rewrite En.
    replace (S (length (occ t pre)) - 1)%nat with (length (occ t pre)) by lia. rewrite Hocc. reflexivity. }
  rewrite Ev. rewrite (IH (pre ++ [(t, p)])%list (S i) (dset String.eqb counter t n)); [reflexivity|rewrite <- app_assoc; exact E|].
  intro s. unfold counted. destruct (string_dec s t) as [->|Ns].
  - rewrite (PreludeFacts.dget_dset_same _ _ _ String.eqb_eq). rewrite occ_app, occ_one, List.app_length. simpl. lia.
  - rewrite (PreludeFacts.dget_dset_other _ _ _ String.eqb_eq) by exact Ns. rewrite occ_app, occ_other, app_nil_r by exact Ns. exact (C s).
Qed.

Lemma combine_fst : forall A B (l : list A) (m : list B), length l = length m -> map fst (combine l m) = l.
Proof. intros A B. induction l as [|x l IH]; intros [|y m] H; try discriminate; [reflexivity|]. cbn. f_equal. apply IH. injection H; auto. Qed.
Lemma combine_snd : forall A B (l : list A) (m : list B), length l = length m -> map snd (combine l m) = m.
Proof. intros A B. induction l as [|x l IH]; intros [|y m] H; try discriminate; [reflexivity|]. cbn. f_equal. apply IH. injection H; auto. Qed.

Theorem crest_round_trip : forall types probs defaults, no_numbered types -> length types = length probs ->
  exists d, crest_ownership types probs = Ok d /\ length d = length types /\
    (forall t k, In t types -> (1 <= k)%nat -> dget String.eqb d (copy t k) = nth_error (occ t (combine types probs)) (k - 1)) /\
    get_ownership_from_dict types defaults d = Ok probs.
Proof.
  intros types probs defaults N L. unfold crest_ownership.
  assert (Hl : forall x, In x (combine types probs) -> In (fst x) types) by (intros [t p] H; exact (in_combine_l _ _ _ _ H)).
  destruct (ownership_spec types N (combine types probs) [] [] Hl) as (d & E & R & Ld).
  - intros s Hs k Hk. cbn. destruct (k - 1)%nat; reflexivity.
  - reflexivity.
  - exists d. split; [exact E|]. split; [rewrite Ld, combine_length; simpl; lia|]. split; [intros t k Ht Hk; exact (R t Ht k Hk)|].
    unfold get_ownership_from_dict, get_target_from_dict.
    pose proof (read_back (combine types probs) d types defaults (proj1 N) Hl R (combine types probs) [] 0%nat [] eq_refl (fun s => eq_refl)) as B.
    rewrite combine_fst, combine_snd in B by exact L. exact B.
Qed.

(** ** Types that do not end with a digit *)

Definition is_digit (c : ascii) : bool := existsb (Ascii.eqb c) ["0"; "1"; "2"; "3"; "4"; "5"; "6"; "7"; "8"; "9"]%char.
Fixpoint digit_end (s : string) : bool :=
  match s with
  | EmptyString => false
  | String c EmptyString => is_digit c
  | String _ t => digit_end t
  end.

Lemma digit_end_app : forall a b, b <> "" -> digit_end (a ++ b) = digit_end b.
Proof.
  induction a as [|c a IH]; intros b H; [reflexivity|]. cbn [append]. specialize (IH b H).
  assert (E : a ++ b <> "") by (destruct a; [exact H|discriminate]).
  destruct (a ++ b) as [|c' s'] eqn:Eab; [congruence|]. rewrite <- IH. reflexivity.
Qed.

Lemma digits_end : forall u, u <> Decimal.Nil -> digit_end (NilEmpty.string_of_uint u) = true.
Proof. induction u as [| u IH | u IH | u IH | u IH | u IH | u IH | u IH | u IH | u IH | u IH]; intro H; [congruence|..];
  (destruct u; [reflexivity|..]; exact (IH ltac:(discriminate))). Qed.

Lemma decimal_end : forall k, (2 <= k)%nat -> decimal k <> "" /\ digit_end (decimal k) = true.
Proof.
  intros k Hk. unfold decimal. assert (Nat.to_uint k <> Decimal.Nil).
  { intro E. pose proof (Unsigned.of_to k) as H. rewrite E in H. cbn in H. lia. }
  split; [destruct (Nat.to_uint k); try discriminate; congruence|]. apply digits_end. exact H.
Qed.

Lemma no_digit_end : forall types, (forall t, In t types -> t <> "" /\ digit_end t = false) -> no_numbered types.
Proof.
  intros types H. split; [intros t Ht; exact (proj1 (H t Ht))|]. intros s t k Hs _ Hk E.
  destruct (H s Hs) as [_ D]. rewrite E in D. unfold copy in D. destruct (Nat.eqb_spec k 1); [lia|].
  destruct (decimal_end k Hk) as [N1 N2]. rewrite digit_end_app in D; [|discriminate].
  change ("_" ++ decimal k) with (append "_" (decimal k)) in D. rewrite digit_end_app in D by exact N1. congruence.
Qed.

Lemma table_types : forall names types, translate_1d appliance_table names = Ok types -> no_numbered types.
Proof.
  intros names types H. apply no_digit_end. intros t Ht. apply in_at in Ht as [i Hi].
  destruct (mapM_ok _ _ _ _ _ H) as [L M]. destruct (lt_at _ names i) as [x Hx]; [rewrite <- L; exact (at_lt _ _ _ _ Hi)|].
  destruct (M i x Hx) as (y & Y2 & Y1). unfold at_ in *. assert (y = t) by congruence. subst y.
  destruct (dget String.eqb appliance_table x) as [y|] eqn:E; [|discriminate]. injection Y1 as ->.
  apply (PreludeFacts.dget_in _ _ _ String.eqb_eq) in E.
  assert (G : forallb (fun e => negb (String.eqb (snd e) "") && negb (digit_end (snd e))) appliance_table = true) by (vm_compute; reflexivity).
  rewrite forallb_forall in G. specialize (G _ E). cbn [snd] in G. apply andb_prop in G as [G1 G2].
  apply negb_true_iff in G1, G2. apply String.eqb_neq in G1. auto.
Qed.
