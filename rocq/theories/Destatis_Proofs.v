(** * Proofs about the ownership dictionary of the German office. *)

From Coq Require Import String List ZArith QArith Bool Arith Lia Lqa Ascii.
From Verif Require Import Prelude PreludeFacts SpecBase SpecBaseFacts Subgroup_Model Subgroup_Proofs Appliance_Model Appliance_Spec
  Appliance_TypeProofs OwnDict_Spec OwnDict_Proofs Destatis_Model Destatis_Spec Destatis_ColumnProofs.
Import ListNotations.
Open Scope string_scope.

Notation sget := (dget String.eqb).

(** ** Dictionaries *)

Lemma get_set_same : forall (d : list (string * Q)) k v, sget (dset String.eqb d k v) k = Some v.
Proof. intros. apply PreludeFacts.dget_dset_same. apply String.eqb_eq. Qed.
Lemma get_set_other : forall (d : list (string * Q)) k v k', k' <> k -> sget (dset String.eqb d k v) k' = sget d k'.
Proof. intros. apply PreludeFacts.dget_dset_other; [apply String.eqb_eq|assumption]. Qed.

Lemma set_keys_in : forall (d : list (string * Q)) k v key, In key (map fst (dset String.eqb d k v)) <-> key = k \/ In key (map fst d).
Proof.
  intros d k v key. induction d as [|[k' v'] d IH]; simpl; [intuition|].
  destruct (String.eqb_spec k k') as [->|N]; simpl; [intuition|]. rewrite IH. intuition.
Qed.

Lemma set_nodup : forall (d : list (string * Q)) k v, NoDup (map fst d) -> NoDup (map fst (dset String.eqb d k v)).
Proof.
  intros d k v. induction d as [|[k' v'] d IH]; simpl; intro H; [repeat constructor; simpl; tauto|].
  inversion H as [|? ? Hn Hd]; subst. destruct (String.eqb_spec k k') as [->|N]; simpl; [constructor; assumption|].
  constructor; [|auto]. intro X. apply set_keys_in in X as [->|X]; [congruence|contradiction].
Qed.

Lemma del_keys_in : forall (d : list (string * Q)) k key, In key (map fst (ddel String.eqb d k)) -> In key (map fst d).
Proof.
  intros d k key. induction d as [|[k' v'] d IH]; simpl; [tauto|]. destruct (String.eqb k k'); simpl; intuition.
Qed.

Lemma del_nodup : forall (d : list (string * Q)) k, NoDup (map fst d) -> NoDup (map fst (ddel String.eqb d k)).
Proof.
  intros d k. induction d as [|[k' v'] d IH]; simpl; intro H; [constructor|]. inversion H as [|? ? Hn Hd]; subst.
  destruct (String.eqb k k'); [assumption|]. simpl. constructor; [|auto]. intro X. apply Hn. eapply del_keys_in; exact X.
Qed.

(** ** One row *)

Definition family (name key : string) : Prop := key = name \/ exists k, (1 <= k)%nat /\ key = copy_key name k.

Lemma copy_key_inj : forall a b i j, copy_key a i = copy_key b j -> a = b /\ i = j.
Proof. exact numbered_inj. Qed.
Lemma copy_key_self : forall a k, a <> copy_key a k.
Proof. exact numbered_self. Qed.

Lemma store_copies_other : forall ps d name i key, (forall k, (i <= k < i + length ps)%nat -> key <> copy_key name k) ->
  sget (store_copies d name i ps) key = sget d key.
Proof.
  induction ps as [|p ps IH]; intros d name i key H; simpl; [reflexivity|].
  rewrite IH; [apply get_set_other; apply H; simpl; lia|]. intros k Hk. apply H. simpl. lia.
Qed.

Lemma store_copies_same : forall ps d name i k p, nth_error ps k = Some p ->
  sget (store_copies d name i ps) (copy_key name (i + k)) = Some (or_zero p).
Proof.
  induction ps as [|p0 ps IH]; intros d name i [|k] p H; simpl in *; try discriminate.
  - injection H as ->. rewrite store_copies_other; [rewrite Nat.add_0_r; apply get_set_same|].
    intros k Hk E. apply copy_key_inj in E as [_ E]. lia.
  - rewrite <- Nat.add_succ_comm. apply IH. exact H.
Qed.

Lemma store_copies_nodup : forall ps d name i, NoDup (map fst d) -> NoDup (map fst (store_copies d name i ps)).
Proof. induction ps as [|p ps IH]; intros d name i H; simpl; [assumption|]. apply IH, set_nodup, H. Qed.

Lemma store_copies_keys : forall ps d name i key, (1 <= i)%nat -> In key (map fst (store_copies d name i ps)) -> In key (map fst d) \/ family name key.
Proof.
  induction ps as [|p ps IH]; intros d name i key Hi H; simpl in H; [left; assumption|].
  apply IH in H; [|lia]. destruct H as [H|H]; [|right; assumption]. apply set_keys_in in H as [->|H]; [|left; assumption].
  right. right. exists i. split; [lia|reflexivity].
Qed.

Lemma store_ok : forall d name ps, ps <> [] -> exists d', store d name ps = Ok d'.
Proof.
  intros d name [|p ps] H; [congruence|]. unfold store.
  pose proof (store_copies_same (p :: ps) d name 1 0 p eq_refl) as E. cbn [Nat.add] in E. rewrite E. eauto.
Qed.

Lemma store_spec : forall d name ps d', ps <> [] -> NoDup (map fst d) -> store d name ps = Ok d' ->
  NoDup (map fst d') /\
  sget d' name = option_map or_zero (nth_error ps 0) /\
  sget d' (copy_key name 1) = None /\
  (forall k, (2 <= k <= length ps)%nat -> sget d' (copy_key name k) = option_map or_zero (nth_error ps (k - 1))) /\
  (forall k, (length ps < k)%nat -> (2 <= k)%nat -> sget d' (copy_key name k) = sget d (copy_key name k)) /\
  (forall key, ~ family name key -> sget d' key = sget d key) /\
  (forall key, In key (map fst d') -> In key (map fst d) \/ family name key).
Proof.
  intros d name ps d' Hne Hnd H. unfold store in H.
  set (d1 := store_copies d name 1 ps) in *.
  assert (N1 : NoDup (map fst d1)) by (apply store_copies_nodup; assumption).
  destruct ps as [|p ps]; [congruence|].
  assert (G1 : sget d1 (copy_key name 1) = Some (or_zero p)) by (exact (store_copies_same (p :: ps) d name 1 0 p eq_refl)).
  rewrite G1 in H. injection H as <-.
  split; [apply set_nodup, del_nodup, N1|]. split; [rewrite get_set_same; reflexivity|].
  split; [rewrite get_set_other by (intro E; symmetry in E; exact (copy_key_self _ _ E)); apply dget_ddel_same; [apply String.eqb_eq|exact N1]|].
  assert (O : forall k, (2 <= k)%nat -> sget (dset String.eqb (ddel String.eqb d1 (copy_key name 1)) name (or_zero p)) (copy_key name k) = sget d1 (copy_key name k)).
  { intros k Hk. rewrite get_set_other by (intro E; symmetry in E; exact (copy_key_self _ _ E)).
    apply dget_ddel_other; [apply String.eqb_eq|]. intro E. apply copy_key_inj in E as [_ E]. lia. }
  split; [|split; [|split]].
  - intros k Hk. rewrite O by lia. destruct (nth_error (p :: ps) (k - 1)) as [q|] eqn:En; [|apply nth_error_None in En; lia].
    cbn [option_map]. replace k with (1 + (k - 1))%nat at 1 by lia. apply store_copies_same. exact En.
  - intros k Hk Hk2. rewrite O by lia. apply store_copies_other. intros j Hj E. apply copy_key_inj in E as [_ E]. lia.
  - intros key Hf. rewrite get_set_other by (intro E; apply Hf; left; exact E).
    rewrite dget_ddel_other; [|apply String.eqb_eq|intro E; apply Hf; right; exists 1%nat; split; [lia|exact E]].
    apply store_copies_other. intros k Hk E. apply Hf. right. exists k. split; [lia|exact E].
  - intros key Hin. apply set_keys_in in Hin as [->|Hin]; [right; left; reflexivity|].
    apply del_keys_in in Hin. apply store_copies_keys in Hin; [exact Hin|lia].
Qed.

(** ** The probabilities of a row *)

Lemma owned_spec : forall p n ps, owned p n = Ok ps -> ownership p n (map or_zero ps).
Proof.
  intros p n ps H. unfold owned in H. destruct p as [p|], n as [n|].
  - destruct (assign_ownership p (Some n) "floor") as [l|] eqn:E; [|discriminate]. injection H as <-.
    rewrite map_map. cbn [or_zero]. rewrite map_id.
    destruct (assign_sum _ _ _ E) as (S & A & F). pose proof (assign_shape _ _ _ E) as M. cbn zeta in S.
    split; [|split; [exists p; split; [exact A|reflexivity]|split; [exact S|split; [exact F|exact M]]]].
    unfold assign_ownership in E. destruct (_ || _)%bool; [discriminate|]. cbn in E.
    destruct (floor_loop _ _) as [t|]; [|discriminate]. injection E as <-. simpl. lia.
  - destruct (Qltb p 0 || Qltb 1 p)%bool eqn:E; [discriminate|]. apply orb_false_iff in E as [E1 E2]. rewrite Qltb_ge in E1, E2.
    injection H as <-. split; [simpl; lia|]. split; [lra|]. repeat constructor; reflexivity.
  - destruct (Qltb n 0); [discriminate|]. injection H as <-. split; [simpl; lia|]. repeat constructor; reflexivity.
  - injection H as <-. split; [simpl; lia|]. repeat constructor; reflexivity.
Qed.

Lemma owned_ok : forall p n, (exists ps, owned p n = Ok ps) <-> sensible p n.
Proof.
  intros p n. unfold owned, sensible. destruct p as [p|], n as [n|].
  - pose proof (assign_ok_iff p (Some n)) as A. cbn zeta in A. destruct (assign_ownership p (Some n) "floor") as [l|e] eqn:E.
    + cbn [bind]. split; [|eauto]. intros _. destruct A as [A _]. destruct (A (ex_intro _ l eq_refl)). tauto.
    + cbn [bind]. split; [intros [ps H]; discriminate|]. intros H. destruct A as [_ A]. destruct A as [l Hl]; [tauto|discriminate].
  - destruct (Qltb p 0 || Qltb 1 p)%bool eqn:E.
    + split; [intros [ps H]; discriminate|]. apply orb_true_iff in E. rewrite !Qltb_lt in E. intros; destruct E; lra.
    + apply orb_false_iff in E. rewrite !Qltb_ge in E. split; [lra|eauto].
  - destruct (Qltb n 0) eqn:E; rewrite ?Qltb_lt, ?Qltb_ge in E; split; try (intros [ps H]; discriminate); try lra; eauto.
  - split; eauto.
Qed.

Lemma owned_err : forall p n e, owned p n = Err e -> e = ValueError.
Proof.
  intros p n e H. unfold owned in H. destruct p as [p|], n as [n|].
  - destruct (assign_ownership p (Some n) "floor") eqn:E; [discriminate|]. cbn in H. injection H as <-. exact (assign_err _ _ _ _ E).
  - destruct (_ || _)%bool; congruence.
  - destruct (Qltb n 0); congruence.
  - discriminate.
Qed.

Lemma owned_nonempty : forall p n ps, owned p n = Ok ps -> ps <> [].
Proof. intros p n ps H. apply owned_spec in H as [H _]. intros ->. simpl in H. lia. Qed.

(** ** The loop *)

Lemma strip_spec : forall s, strip_spaces s = without_spaces s.
Proof.
  unfold without_spaces. induction s as [|c s IH]; [reflexivity|]. cbn [strip_spaces list_ascii_of_string filter].
  destruct (Ascii.eqb c " "); cbn [negb string_of_list_ascii]; rewrite IH; reflexivity.
Qed.

(** The rows still to be read from row [it]. *)
Definition coming (it : nat) (types : list (option string)) (j : nat) (name : string) : Prop :=
  (it + j < 56)%nat /\ exists raw, at_ types j (Some raw) /\ name = strip_spaces raw.

Lemma coming_tail : forall it t types j name, coming (S it) types j name <-> coming it (t :: types) (S j) name.
Proof.
  intros it t types j name. unfold coming, at_. cbn [nth_error]. rewrite Nat.add_succ_r, Nat.add_succ_l. tauto.
Qed.

Lemma rows_spec : forall types it column d d', (it <= 56)%nat -> NoDup (map fst d) ->
  (forall i j a b key, coming it types i a -> coming it types j b -> i <> j -> family a key -> ~ family b key) ->
  (forall j a k, coming it types j a -> (1 <= k)%nat -> sget d (copy_key a k) = None) ->
  ownership_rows it types column d = Ok d' ->
  NoDup (map fst d') /\
  (forall key, (forall j a, coming it types j a -> ~ family a key) -> sget d' key = sget d key) /\
  (forall key, In key (map fst d') -> In key (map fst d) \/ exists j a, coming it types j a /\ family a key) /\
  (forall j a, coming it types j a -> exists number prob ps,
     at_ column (it + j) number /\ at_ column (it + j + 51) prob /\ owned prob number = Ok ps /\
     sget d' (copy_key a 1) = None /\
     forall k, (1 <= k)%nat -> sget d' (copy a k) = option_map or_zero (nth_error ps (k - 1))).
Proof.
  induction types as [|t types IH]; intros it column d d' Hit Hnd Hdis Hfresh H.
  - injection H as <-. split; [assumption|]. split; [reflexivity|]. split; [auto|]. intros j a (_ & raw & Hr & _). destruct j; discriminate.
  - cbn [ownership_rows] in H. destruct (Nat.eqb_spec it 56) as [->|Nit].
    { injection H as <-. split; [assumption|]. split; [reflexivity|]. split; [auto|]. intros j a (Hj & _). lia. }
    assert (Hdis' : forall i j a b key, coming (S it) types i a -> coming (S it) types j b -> i <> j -> family a key -> ~ family b key).
    { intros i j a b key Ha Hb Hij. apply (Hdis (S i) (S j) a b key); [apply coming_tail; exact Ha|apply coming_tail; exact Hb|lia]. }
    destruct t as [raw|].
    + unfold vget in H. destruct (nth_error column it) as [number|] eqn:En; [|discriminate]. cbn [bind] in H.
      destruct (nth_error column (it + 51)) as [prob|] eqn:Ep; [|discriminate]. cbn [bind] in H.
      destruct (owned prob number) as [ps|] eqn:Eo; [|discriminate]. cbn [bind] in H.
      set (name := strip_spaces raw) in *.
      pose proof (owned_nonempty _ _ _ Eo) as Hne.
      destruct (store d name ps) as [d1|] eqn:Es; [|discriminate]. cbn [bind] in H.
      destruct (store_spec _ _ _ _ Hne Hnd Es) as (N1 & S0 & S1 & S2 & S3 & S4 & S5).
      assert (C0 : coming it (Some raw :: types) 0 name) by (split; [lia|exists raw; split; reflexivity]).
      assert (Away : forall j a key, coming (S it) types j a -> family name key -> ~ family a key).
      { intros j a key Ha. apply coming_tail with (t := Some raw) in Ha. exact (Hdis 0%nat (S j) name a key C0 Ha (Nat.neq_0_succ j)). }
      destruct (IH (S it) column d1 d' ltac:(lia) N1 Hdis') as (R1 & R2 & R3 & R4).
      { intros j a k Ha Hk. rewrite S4.
        - apply (Hfresh (S j) a k); [apply coming_tail; exact Ha|exact Hk].
        - intro F. apply (Away j a _ Ha F). right. exists k. split; [exact Hk|reflexivity]. }
      { exact H. }
      split; [exact R1|]. split; [|split].
      * intros key Hk. rewrite R2; [apply S4, (Hk 0%nat name C0)|]. intros j a Ha. apply (Hk (S j) a). apply coming_tail. exact Ha.
      * intros key Hin. destruct (R3 key Hin) as [Hin'|(j & a & Ha & F)].
        -- destruct (S5 key Hin') as [|F]; [left; assumption|]. right. exists 0%nat, name. split; assumption.
        -- right. exists (S j), a. split; [apply coming_tail; exact Ha|exact F].
      * intros [|j] a Ha.
        -- destruct Ha as (_ & raw' & Hr & ->). injection Hr as <-. fold name. exists number, prob, ps.
           rewrite Nat.add_0_r. split; [exact En|]. split; [exact Ep|]. split; [exact Eo|].
           assert (Keep : forall key, family name key -> sget d' key = sget d1 key) by (intros key F; apply R2; intros j a Ha; exact (Away j a key Ha F)).
           split; [rewrite Keep; [exact S1|right; exists 1%nat; split; [lia|reflexivity]]|].
           intros k Hk. unfold copy. destruct (Nat.eqb_spec k 1) as [->|Nk].
           ++ rewrite Keep by (left; reflexivity). exact S0.
           ++ change (name ++ "_" ++ decimal k) with (copy_key name k). rewrite Keep by (right; exists k; split; [lia|reflexivity]).
              destruct (Nat.le_gt_cases k (length ps)) as [L|L]; [apply S2; lia|].
              rewrite S3 by lia. rewrite (Hfresh 0%nat name k C0 Hk). rewrite (proj2 (nth_error_None ps (k - 1))) by lia. reflexivity.
        -- apply coming_tail in Ha. destruct (R4 j a Ha) as (n & p & qs & X). exists n, p, qs. rewrite Nat.add_succ_r. exact X.
    + destruct (IH (S it) column d d' ltac:(lia) Hnd Hdis') as (R1 & R2 & R3 & R4).
      { intros j a k Ha Hk. apply (Hfresh (S j) a k); [apply coming_tail; exact Ha|exact Hk]. }
      { exact H. }
      split; [exact R1|]. split; [|split].
      * intros key Hk. apply R2. intros j a Ha. apply (Hk (S j) a). apply coming_tail. exact Ha.
      * intros key Hin. destruct (R3 key Hin) as [|(j & a & Ha & F)]; [left; assumption|]. right. exists (S j), a. split; [apply coming_tail; exact Ha|exact F].
      * intros [|j] a Ha.
        -- destruct Ha as (_ & raw & Hr & _). discriminate.
        -- apply coming_tail in Ha. destruct (R4 j a Ha) as (n & p & qs & X). exists n, p, qs. rewrite Nat.add_succ_r. exact X.
Qed.

Lemma rows_ok : forall types it column d, (it <= 56)%nat ->
  (exists d', ownership_rows it types column d = Ok d') <->
  (forall j a, coming it types j a -> exists number prob, at_ column (it + j) number /\ at_ column (it + j + 51) prob /\ sensible prob number).
Proof.
  induction types as [|t types IH]; intros it column d Hit.
  - cbn. split; [|eauto]. intros _ j a (_ & raw & Hr & _). destruct j; discriminate.
  - cbn [ownership_rows]. destruct (Nat.eqb_spec it 56) as [->|Nit].
    { split; [|eauto]. intros _ j a (Hj & _). lia. }
    assert (T : forall (P : nat -> Prop), (forall j a, coming (S it) types j a -> P (S it + j)%nat) <-> (forall j a, coming it (t :: types) (S j) a -> P (it + S j)%nat)).
    { intro P. split; intros X j a Ha.
      - rewrite Nat.add_succ_r. apply (X j a). apply coming_tail with (t := t). exact Ha.
      - specialize (X j a). rewrite Nat.add_succ_r in X. apply X. apply coming_tail. exact Ha. }
    set (P := fun i => exists number prob, at_ column i number /\ at_ column (i + 51) prob /\ sensible prob number) in *.
    destruct t as [raw|].
    + unfold vget. destruct (nth_error column it) as [number|] eqn:En; cbn [bind].
      2:{ split; [intros [? X]; discriminate|]. intro X. destruct (X 0%nat (strip_spaces raw)) as (n & p & Hn & _); [split; [lia|exists raw; split; reflexivity]|].
          rewrite Nat.add_0_r in Hn. unfold at_ in Hn. congruence. }
      destruct (nth_error column (it + 51)) as [prob|] eqn:Ep; cbn [bind].
      2:{ split; [intros [? X]; discriminate|]. intro X. destruct (X 0%nat (strip_spaces raw)) as (n & p & _ & Hp & _); [split; [lia|exists raw; split; reflexivity]|].
          rewrite Nat.add_0_r in Hp. unfold at_ in Hp. congruence. }
      destruct (owned prob number) as [ps|e] eqn:Eo; cbn [bind].
      2:{ split; [intros [? X]; discriminate|]. intro X. destruct (X 0%nat (strip_spaces raw)) as (n & p & Hn & Hp & S); [split; [lia|exists raw; split; reflexivity]|].
          rewrite Nat.add_0_r in Hn, Hp. unfold at_ in Hn, Hp. rewrite En in Hn. rewrite Ep in Hp. injection Hn as <-. injection Hp as <-.
          apply owned_ok in S as [ps S]. congruence. }
      destruct (store_ok d (strip_spaces raw) ps (owned_nonempty _ _ _ Eo)) as [d1 E1]. rewrite E1. cbn [bind].
      refine (iff_trans (IH (S it) column d1 ltac:(lia)) (iff_trans (T P) _)). split.
      * intros X [|j] a Ha; [|exact (X j a Ha)]. rewrite Nat.add_0_r. exists number, prob. split; [exact En|]. split; [exact Ep|]. apply owned_ok. eauto.
      * intros X j a Ha. exact (X (S j) a Ha).
    + refine (iff_trans (IH (S it) column d ltac:(lia)) (iff_trans (T P) _)). split.
      * intros X [|j] a Ha; [destruct Ha as (_ & raw & Hr & _); discriminate|exact (X j a Ha)].
      * intros X j a Ha. exact (X (S j) a Ha).
Qed.

Lemma rows_err : forall types it column d e, ownership_rows it types column d = Err e -> e = IndexError \/ e = ValueError.
Proof.
  induction types as [|t types IH]; intros it column d e H; [discriminate|]. cbn [ownership_rows] in H.
  destruct (Nat.eqb it 56); [discriminate|]. destruct t as [raw|]; [|eapply IH; exact H].
  unfold vget in H. destruct (nth_error column it) as [number|]; [|injection H as <-; auto]. cbn [bind] in H.
  destruct (nth_error column (it + 51)) as [prob|]; [|injection H as <-; auto]. cbn [bind] in H.
  destruct (owned prob number) as [ps|e'] eqn:Eo; [|injection H as <-; right; exact (owned_err _ _ _ Eo)]. cbn [bind] in H.
  destruct (store_ok d (strip_spaces raw) ps (owned_nonempty _ _ _ Eo)) as [d1 E1]. rewrite E1 in H. cbn [bind] in H.
  eapply IH; exact H.
Qed.

(** ** The sheet *)

Lemma cell_says : forall c x, cell_value c = Ok x -> says c x.
Proof.
  intros [q| | |s] x H; simpl in H; try discriminate; injection H as <-; simpl; auto.
  eexists. split; [reflexivity|]. field.
Qed.

Definition same_stat (x y : option Q) : Prop :=
  match x, y with Some a, Some b => a == b | None, None => True | _, _ => False end.

Lemma says_fun : forall c x y, says c x -> says c y -> same_stat x y.
Proof.
  intros [q| | |s] x y; simpl.
  - intros (a & -> & Ha) (b & -> & Hb). simpl. lra.
  - intros -> ->. exact I.
  - intros -> ->. exact I.
  - tauto.
Qed.

Lemma ownership_same : forall p q n m l, same_stat p q -> same_stat n m -> ownership p n l -> ownership q m l.
Proof.
  intros [p|] [q|] [n|] [m|] l Hp Hn; simpl in Hp, Hn; try contradiction; intros [L H]; (split; [exact L|]).
  - destruct H as ((x & A & B) & C & D & E). split; [exists x; split; [exact A|lra]|]. split; [lra|]. split; assumption.
  - destruct H as [H1 H2]. split; [lra|]. inversion H2 as [|x ? l' ? X Y]; subst. constructor; [lra|assumption].
  - exact H.
  - exact H.
Qed.

Lemma sensible_same : forall p q n m, same_stat p q -> same_stat n m -> sensible p n -> sensible q m.
Proof.
  intros [p|] [q|] [n|] [m|] Hp Hn; simpl in Hp, Hn; try contradiction; simpl; intros; try lra; auto.
Qed.

Lemma mapM_at : forall A B (f : A -> result B) l out i y, mapM f l = Ok out -> at_ out i y -> exists x, at_ l i x /\ f x = Ok y.
Proof.
  intros A B f l out i y H Hy. destruct (mapM_ok _ _ _ _ _ H) as [L M].
  destruct (lt_at _ l i ltac:(rewrite <- L; eapply at_lt; exact Hy)) as [x Hx]. exists x. split; [exact Hx|].
  destruct (M i x Hx) as (y' & Hy' & E). unfold at_ in Hy. congruence.
Qed.

Lemma coming_named : forall sh j a, coming 0 (sh_types sh) j a <-> named sh j a.
Proof. intros sh j a. unfold coming, named. rewrite Nat.add_0_l. split; intros (H & raw & E & ->); (split; [exact H|]; exists raw; split; [exact E|]); [apply strip_spec|symmetry; apply strip_spec]. Qed.

Lemma clear_disjoint : forall sh, clear_names sh -> forall i j a b key,
  coming 0 (sh_types sh) i a -> coming 0 (sh_types sh) j b -> i <> j -> family a key -> ~ family b key.
Proof.
  intros sh C i j a b key Ha Hb N [Fa|(k & Hk & Fa)] [Fb|(m & Hm & Fb)]; apply coming_named in Ha, Hb; subst key.
  - apply N. apply (C i j a b Ha Hb). exact Fb.
  - exact (proj2 (C i j a b Ha Hb) m Hm Fb).
  - apply (proj2 (C j i b a Hb Ha) k Hk). symmetry. exact Fb.
  - apply copy_key_inj in Fb as [E _]. apply N. apply (C i j a b Ha Hb). exact E.
Qed.

Lemma parse_inv : forall sh g d, parse_ownership sh g = Ok d -> exists k cells column,
  get_column (remove_time_attributues g) = Ok k /\ (0 <= k)%Z /\ at_ (sh_columns sh) (Z.to_nat k) cells /\ mapM cell_value cells = Ok column /\
  ownership_rows 0 (sh_types sh) column [] = Ok d.
Proof.
  intros sh g d H. unfold parse_ownership in H. destruct (get_column (remove_time_attributues g)) as [k|] eqn:Ek; [|discriminate]. cbn [bind] in H.
  unfold vget in H. destruct (nth_error (sh_columns sh) (Z.to_nat k)) as [cells|] eqn:Ec; [|discriminate]. cbn [bind] in H.
  destruct (mapM cell_value cells) as [column|] eqn:Em; [|discriminate]. cbn [bind] in H.
  exists k, cells, column. repeat split; auto. apply column_fits in Ek. pose proof (heading_cases _ _ Ek) as X. cbn [In] in X. lia.
Qed.

Theorem parsed_rows : forall sh g d k, clear_names sh -> parse_ownership sh g = Ok d -> get_column (remove_time_attributues g) = Ok k ->
  NoDup (map fst d) /\
  (forall i name, named sh i name -> exists p n, listed sh (Z.to_nat k) i name p n) /\
  (forall i name p n, listed sh (Z.to_nat k) i name p n -> exists l, ownership p n l /\ reads d name l) /\
  (forall key, In key (map fst d) -> exists i name j, named sh i name /\ (1 <= j)%nat /\ key = copy name j).
Proof.
  intros sh g d k C H Hk. destruct (parse_inv _ _ _ H) as (k' & cells & column & E & _ & Hc & Em & Er).
  assert (k' = k) as -> by congruence.
  destruct (rows_spec (sh_types sh) 0 column [] d) as (R1 & _ & R3 & R4); [lia|constructor|apply clear_disjoint; exact C|reflexivity|exact Er|].
  split; [exact R1|]. split; [|split].
  - intros i name Hn. destruct (R4 i name (proj2 (coming_named sh i name) Hn)) as (n & p & ps & An & Ap & _). rewrite Nat.add_0_l in An, Ap.
    destruct (mapM_at _ _ _ _ _ _ _ Em An) as (c1 & A1 & V1). destruct (mapM_at _ _ _ _ _ _ _ Em Ap) as (c2 & A2 & V2).
    exists p, n. destruct Hn as (Hi & raw & Hr & ->). split; [exact Hi|]. exists raw, cells, c1, c2. auto 10 using cell_says.
  - intros i name p n (Hi & raw & cells' & c1 & c2 & Hr & -> & Hc' & A1 & S1 & A2 & S2).
    assert (cells' = cells) as -> by (eapply at_fun; [exact Hc'|exact Hc]).
    destruct (R4 i (without_spaces raw)) as (n0 & p0 & ps & An & Ap & Eo & _ & V).
    { apply coming_named. split; [exact Hi|]. exists raw. auto. }
    rewrite Nat.add_0_l in An, Ap.
    destruct (mapM_at _ _ _ _ _ _ _ Em An) as (c1' & A1' & V1). destruct (mapM_at _ _ _ _ _ _ _ Em Ap) as (c2' & A2' & V2).
    rewrite (at_fun _ _ _ _ _ A1' A1) in V1. rewrite (at_fun _ _ _ _ _ A2' A2) in V2.
    exists (map or_zero ps). split.
    + eapply ownership_same; [| |apply owned_spec; exact Eo]; eapply says_fun; eauto using cell_says.
    + intros j Hj. rewrite (V j Hj). symmetry. apply nth_error_map.
  - intros key Hin. destruct (R3 key Hin) as [[]|(i & a & Ha & F)].
    destruct F as [->|(j & Hj & ->)].
    + exists i, a, 1%nat. split; [apply coming_named; exact Ha|]. split; [lia|reflexivity].
    + destruct (Nat.eq_dec j 1) as [->|Nj].
      * exfalso. destruct (R4 i a Ha) as (n & p & ps & _ & _ & _ & Z & _). apply dget_none_notin in Z; [contradiction|apply String.eqb_eq].
      * exists i, a, j. split; [apply coming_named; exact Ha|]. split; [exact Hj|]. unfold copy. destruct (Nat.eqb_spec j 1); [contradiction|reflexivity].
Qed.

(** When reading succeeds. *)
Theorem parsed_iff : forall sh g k cells, get_column (remove_time_attributues g) = Ok k -> at_ (sh_columns sh) (Z.to_nat k) cells ->
  ((exists d, parse_ownership sh g = Ok d) <->
   (forall i c, at_ cells i c -> exists x, says c x) /\
   (forall i name, named sh i name -> exists p n, listed sh (Z.to_nat k) i name p n /\ sensible p n)).
Proof.
  intros sh g k cells Hk Hc. split.
  - intros [d H]. destruct (parse_inv _ _ _ H) as (k' & cells' & column & E & _ & Hc' & Em & Er). assert (k' = k) as -> by congruence.
    rewrite (at_fun _ _ _ _ _ Hc' Hc) in *. split.
    + intros i c Hi. destruct (mapM_ok _ _ _ _ _ Em) as [_ M]. destruct (M i c Hi) as (x & _ & V). exists x. apply cell_says. exact V.
    + intros i name Hn. pose proof (proj1 (rows_ok (sh_types sh) 0 column [] (Nat.le_0_l _)) (ex_intro _ d Er)) as R.
      destruct (R i name (proj2 (coming_named sh i name) Hn)) as (n & p & An & Ap & S). rewrite Nat.add_0_l in An, Ap.
      destruct (mapM_at _ _ _ _ _ _ _ Em An) as (c1 & A1 & V1). destruct (mapM_at _ _ _ _ _ _ _ Em Ap) as (c2 & A2 & V2).
      exists p, n. split; [|exact S]. destruct Hn as (Hi & raw & Hr & ->). split; [exact Hi|]. exists raw, cells, c1, c2. auto 10 using cell_says.
  - intros [Hs Hr]. assert (Hm : exists column, mapM cell_value cells = Ok column).
    { apply mapM_total. intros c Hin. apply in_at in Hin as [i Hi]. destruct (Hs i c Hi) as [x Hx]. destruct c; simpl in *; eauto; contradiction. }
    destruct Hm as [column Em]. destruct (mapM_ok _ _ _ _ _ Em) as [_ M].
    destruct (proj2 (rows_ok (sh_types sh) 0 column [] (Nat.le_0_l _))) as [d Er].
    + intros i name Hn. apply coming_named in Hn. destruct (Hr i name Hn) as (p & n & (Hi & raw & cells' & c1 & c2 & Ht & -> & Hc' & A1 & S1 & A2 & S2) & S).
      rewrite (at_fun _ _ _ _ _ Hc' Hc) in *. destruct (M i c1 A1) as (n' & An & V1). destruct (M (i + 51)%nat c2 A2) as (p' & Ap & V2).
      exists n', p'. rewrite Nat.add_0_l. split; [exact An|]. split; [exact Ap|].
      eapply sensible_same; [| |exact S]; eapply says_fun; eauto using cell_says.
    + exists d. unfold parse_ownership. rewrite Hk. cbn [bind]. unfold vget. unfold at_ in Hc. rewrite Hc. cbn [bind]. rewrite Em. cbn [bind]. exact Er.
Qed.

Lemma parsed_err : forall sh g k e, get_column (remove_time_attributues g) = Ok k -> parse_ownership sh g = Err e -> e = IndexError \/ e = ValueError.
Proof.
  intros sh g k e Hk H. unfold parse_ownership in H. rewrite Hk in H. cbn [bind] in H. unfold vget in H.
  destruct (nth_error (sh_columns sh) (Z.to_nat k)) as [cells|]; [|injection H as <-; auto]. cbn [bind] in H.
  destruct (mapM cell_value cells) as [column|e'] eqn:Em; cbn [bind] in H.
  - exact (rows_err _ _ _ _ _ H).
  - injection H as <-. right. clear -Em. induction cells as [|c cells IH]; [discriminate|]. simpl in Em.
    destruct c as [q| | |s]; cbn [cell_value bind] in Em; try (destruct (mapM cell_value cells) as [r|r]; cbn [bind] in Em; [discriminate|injection Em as <-; apply IH; reflexivity]).
    injection Em as <-. reflexivity.
Qed.
