(** * Proofs about multi-simulators. *)

From Coq Require Import String List ZArith QArith Bool Lia Arith.
From Verif Require Import Prelude PreludeFacts SpecBase SpecBaseFacts Multi_Model Multi_Spec Base_Proofs.
Import ListNotations.

Section MultiProofs.
  Variables (S X Y V : Type).
  Variable sub_step : list (list X) -> S -> result S.
  Variable nhh : S -> nat.
  Variable getter : string -> S -> result (list Y).
  Variable subgroup : S -> list (string * V).
  Variable veqb : V -> V -> bool.
  Hypothesis nhh_step : forall p s s', sub_step p s = Ok s' -> nhh s' = nhh s.
  Hypothesis veqb_eq : forall a b, veqb a b = true <-> a = b.

  Notation cuts := (cuts S X nhh).
  Notation first_household := (first_household S nhh).

  (** Generalisation of [cuts] with a prefix of [off] households already handed out. *)
  Definition cuts_from (off : nat) (l : list S) (args : list (list X)) (parts : list (list (list X))) : Prop :=
    length parts = length l /\
    (forall i s p, at_ l i s -> at_ parts i p ->
       length p = length args /\ (forall a x, at_ p a x -> length x = nhh s)) /\
    (forall a arg, at_ args a arg -> skipn off arg = concat (map (fun p => nth a p []) parts)).

  Lemma map_nth_self : forall B (args : list B) (f : B -> list X) (p : list (list X)),
    length p = length args -> (forall a arg, at_ args a arg -> f arg = nth a p []) -> map f args = p.
  Proof.
    induction args as [|x args IH]; intros f [|y p] Hl H; simpl in *; try discriminate; auto.
    f_equal; [apply (H 0%nat); reflexivity|]. apply IH; [lia|]. intros a arg Ha. apply (H (Datatypes.S a)); auto.
  Qed.

  Lemma skipn_add : forall B (l : list B) a b, skipn (a + b) l = skipn b (skipn a l).
  Proof.
    induction l as [|x l IH]; intros a b; [destruct a; destruct b; reflexivity|].
    destruct a as [|a]; simpl; auto.
  Qed.

  Lemma step_subs_spec : forall l off args parts, cuts_from off l args parts ->
    step_subs sub_step nhh off args l = mapM (fun sp => sub_step (snd sp) (fst sp)) (combine l parts).
  Proof.
    induction l as [|s l IH]; intros off args parts (Hlen & Hp & Ha).
    - destruct parts; [reflexivity|discriminate].
    - destruct parts as [|p parts]; [discriminate|]. simpl.
      destruct (Hp 0%nat s p eq_refl eq_refl) as [Hpl Hpn].
      assert (Hslice : map (slice off (nhh s)) args = p).
      { apply map_nth_self; auto. intros a arg Harg. unfold slice. rewrite (Ha a arg Harg). simpl.
        assert (Hx : at_ p a (nth a p [])).
        { unfold at_. apply nth_error_nth'. rewrite Hpl. eapply at_lt; eauto. }
        rewrite <- (Hpn a _ Hx). rewrite firstn_app, firstn_all, Nat.sub_diag. simpl. apply app_nil_r. }
      rewrite Hslice. destruct (sub_step p s) as [s'|e] eqn:E; simpl; auto.
      rewrite (nhh_step _ _ _ E). rewrite (IH (off + nhh s)%nat args parts); auto.
      repeat split.
      + simpl in Hlen; lia.
      + apply (Hp (Datatypes.S i) s0 p0); auto.
      + apply (Hp (Datatypes.S i) s0 p0); auto.
      + intros a arg Harg. rewrite skipn_add, (Ha a arg Harg). simpl.
        assert (Hx : at_ p a (nth a p [])).
        { unfold at_. apply nth_error_nth'. rewrite Hpl. eapply at_lt; eauto. }
        rewrite <- (Hpn a _ Hx). rewrite skipn_app, skipn_all, Nat.sub_diag. reflexivity.
  Qed.

  Lemma combine_at_some : forall A B (l : list A) (m : list B) i a b, at_ l i a -> at_ m i b -> at_ (combine l m) i (a, b).
  Proof.
    induction l as [|x l IH]; intros m i a b Ha Hb; unfold at_ in *; [destruct i; discriminate|].
    destruct m as [|y m]; [destruct i; discriminate|].
    destruct i as [|i]; simpl in *; [congruence|]. eapply IH; eauto.
  Qed.

  Lemma Forall2_weaken : forall A B (P R : A -> B -> Prop) l m, (forall a b, P a b -> R a b) -> Forall2 P l m -> Forall2 R l m.
  Proof. intros A B P R l m HPR H. induction H; constructor; auto. Qed.

  Lemma cuts_cuts_from : forall l args parts, cuts l args parts -> cuts_from 0 l args parts.
  Proof. intros l args parts H. exact H. Qed.

  Theorem multi_step_spec : forall (m m' : multi S Y) args parts, cuts (subs m) args parts ->
    multi_step sub_step nhh args m = Ok m' ->
    mctr m' = Datatypes.S (mctr m) /\ length (subs m') = length (subs m) /\
    forall i s p, at_ (subs m) i s -> at_ parts i p -> exists s', at_ (subs m') i s' /\ sub_step p s = Ok s'.
  Proof.
    intros m m' args parts Hc H. unfold multi_step in H. rewrite (step_subs_spec _ _ _ _ (cuts_cuts_from _ _ _ Hc)) in H.
    destruct (mapM _ (combine (subs m) parts)) as [l|e] eqn:E; simpl in H; [|discriminate].
    injection H as <-; simpl. apply mapM_ok in E as [Hl Hn]. split; [reflexivity|]. destruct Hc as (Hlen & _).
    split; [rewrite Hl, combine_length; lia|].
    intros i s p Hs Hp. destruct (Hn i (s, p)) as (s' & Hs' & E'); [apply combine_at_some; auto|]. eauto.
  Qed.

  Theorem multi_step_succeeds : forall (m : multi S Y) args parts, cuts (subs m) args parts ->
    (forall i s p, at_ (subs m) i s -> at_ parts i p -> exists s', sub_step p s = Ok s') ->
    exists m', multi_step sub_step nhh args m = Ok m'.
  Proof.
    intros m args parts Hc H. unfold multi_step. rewrite (step_subs_spec _ _ _ _ (cuts_cuts_from _ _ _ Hc)).
    destruct (mapM_total _ _ (fun sp : S * list (list X) => sub_step (snd sp) (fst sp)) (combine (subs m) parts)) as [l Hl].
    - intros [s p] Hin. apply in_at in Hin as [i Hi]. simpl. apply (H i s p).
      + unfold at_ in *. clear -Hi. revert i Hi. generalize parts. induction (subs m) as [|x l IH]; intros q i Hi.
        * destruct i; discriminate.
        * destruct q as [|y q]; [destruct i; discriminate|]. destruct i as [|i]; simpl in *; [congruence|eauto].
      + unfold at_ in *. clear -Hi. revert i Hi. generalize parts. induction (subs m) as [|x l IH]; intros q i Hi.
        * destruct i; discriminate.
        * destruct q as [|y q]; [destruct i; discriminate|]. destruct i as [|i]; simpl in *; [congruence|eauto].
    - rewrite Hl. simpl. eauto.
  Qed.

  (** Histories: [cut_hist] pairs the arguments of each step with their parts. *)
  Lemma cuts_nhh : forall l l' args parts, length l' = length l ->
    (forall i s s', at_ l i s -> at_ l' i s' -> nhh s' = nhh s) -> cuts l args parts -> cuts l' args parts.
  Proof.
    intros l l' args parts Hl Hn (H1 & H2 & H3). split; [congruence|]. split; [|exact H3].
    intros i s' p Hs' Hp. assert (Hi : (i < length l)%nat) by (rewrite <- Hl; eapply at_lt; eauto).
    destruct (lt_at _ l i Hi) as [s Hs]. rewrite (Hn i s s' Hs Hs'). eapply H2; eauto.
  Qed.

  Theorem multi_run_spec : forall hist parts_hist (m m' : multi S Y),
    Forall2 (fun args parts => cuts (subs m) args parts) hist parts_hist ->
    multi_run sub_step nhh hist m = Ok m' ->
    mctr m' = (mctr m + length hist)%nat /\ length (subs m') = length (subs m) /\
    forall i s, at_ (subs m) i s -> exists s', at_ (subs m') i s' /\ nhh s' = nhh s /\
      runs_alone S X sub_step (map (fun parts => nth i parts []) parts_hist) s s'.
  Proof.
    induction hist as [|args hist IH]; intros parts_hist m m' Hc H; inversion Hc as [|? parts ? ph Hc1 Hc2]; subst; simpl in H.
    - injection H as <-. split; [simpl; lia|]. split; auto. intros i s Hs. exists s. repeat split; auto. constructor.
    - destruct (multi_step sub_step nhh args m) as [m1|e] eqn:E1; simpl in H; [|discriminate].
      destruct (multi_step_spec _ _ _ _ Hc1 E1) as (Hctr & Hlen & Hsub).
      assert (Hpart : forall i s, at_ (subs m) i s -> exists s1, at_ (subs m1) i s1 /\ sub_step (nth i parts []) s = Ok s1).
      { intros i s Hs. apply (Hsub i s); auto. unfold at_. apply nth_error_nth'.
        destruct Hc1 as (Hl & _). rewrite Hl. eapply at_lt; eauto. }
      assert (Hn : forall i s s', at_ (subs m) i s -> at_ (subs m1) i s' -> nhh s' = nhh s).
      { intros i s s' Hs Hs'. destruct (Hpart i s Hs) as (s1 & Hs1 & E). rewrite (at_fun _ _ _ _ _ Hs' Hs1). eauto. }
      destruct (IH ph m1 m') as (H1 & H2 & H3); auto.
      { eapply Forall2_weaken; [|exact Hc2]. intros a b Hab. eapply cuts_nhh; eauto. }
      split; [simpl; lia|]. split; [congruence|].
      intros i s Hs. destruct (Hpart i s Hs) as (s1 & Hs1 & E). destruct (H3 i s1 Hs1) as (s' & Hs' & En & Hr).
      exists s'. repeat split; auto; [rewrite En; eauto|]. simpl. econstructor; eauto.
  Qed.

  (** *** Getters *)

  Definition mcoherent (m : multi S Y) : Prop :=
    forall name v, dget String.eqb (mcache m) name = Some v ->
    exists vs, mapM (getter name) (subs m) = Ok vs /\ v = concat vs.

  Theorem multi_get_spec : forall (m m' : multi S Y) name v, mcoherent m -> multi_get getter name m = Ok (v, m') ->
    subs m' = subs m /\ mctr m' = mctr m /\ mcoherent m' /\
    exists vs, length vs = length (subs m) /\ v = concat vs /\
    forall i s, at_ (subs m) i s -> exists x, at_ vs i x /\ getter name s = Ok x.
  Proof.
    intros m m' name v Hc H. unfold multi_get in H.
    destruct (dget String.eqb (mcache m) name) as [w|] eqn:E.
    - injection H as <- <-. repeat split; auto. destruct (Hc _ _ E) as (vs & Hvs & ->).
      apply mapM_ok in Hvs as [Hl Hn]. exists vs. auto.
    - destruct (mapM (getter name) (subs m)) as [vs|e] eqn:Em; simpl in H; [|discriminate].
      injection H as <- <-; simpl. repeat split; auto.
      + intros n w Hn; simpl in Hn. destruct (String.eqb_spec n name) as [->|Hne].
        * rewrite (dget_dset_same _ _ String.eqb String.eqb_eq) in Hn. injection Hn as <-. eauto.
        * rewrite (dget_dset_other _ _ String.eqb String.eqb_eq) in Hn by auto. apply Hc; auto.
      + apply mapM_ok in Em as [Hl Hn]. exists vs. auto.
  Qed.

  Lemma multi_step_coherent : forall (m m' : multi S Y) args, multi_step sub_step nhh args m = Ok m' -> mcoherent m'.
  Proof.
    intros m m' args H. unfold multi_step in H. destruct (step_subs _ _ _ _ _); simpl in H; [|discriminate].
    injection H as <-. intros n v Hv; discriminate.
  Qed.

  (** Position of a household in a concatenation. *)
  Lemma concat_at : forall B (vs : list (list B)) i x k y, at_ vs i x -> at_ x k y ->
    at_ (concat vs) (total_nat (map (@length B) (firstn i vs)) + k) y.
  Proof.
    unfold at_. induction vs as [|v vs IH]; intros i x k y Hi Hk; [destruct i; discriminate|].
    destruct i as [|i]; simpl in *.
    - injection Hi as ->. rewrite nth_error_app1; auto. apply nth_error_Some; congruence.
    - rewrite nth_error_app2 by lia. 
      change (total_nat (length v :: map (@length B) (firstn i vs))) with (length v + total_nat (map (@length B) (firstn i vs)))%nat.
      replace (length v + total_nat (map (@length B) (firstn i vs)) + k - length v)%nat
        with (total_nat (map (@length B) (firstn i vs)) + k)%nat by lia.
      eapply IH; eauto.
  Qed.

  Lemma firstn_lengths : forall B (l : list S) (vs : list (list B)) i,
    length vs = length l -> (forall j s x, at_ l j s -> at_ vs j x -> length x = nhh s) ->
    total_nat (map (@length B) (firstn i vs)) = first_household l i.
  Proof.
    unfold Multi_Spec.first_household. induction l as [|s l IH]; intros [|v vs] i Hl H; simpl in Hl; try discriminate.
    - destruct i; reflexivity.
    - destruct i as [|i]; [reflexivity|]. simpl. f_equal.
      + apply (H 0%nat s v); reflexivity.
      + apply IH; [lia|]. intros j s' x Hs Hx. apply (H (Datatypes.S j)); auto.
  Qed.

  Lemma concat_total : forall B (l : list S) (vs : list (list B)), length vs = length l ->
    (forall j s x, at_ l j s -> at_ vs j x -> length x = nhh s) -> length (concat vs) = total_nat (map nhh l).
  Proof.
    induction l as [|s l IH]; intros [|v vs] Hl H; simpl in Hl; try discriminate; [reflexivity|].
    simpl. rewrite app_length. f_equal; [apply (H 0%nat s v); reflexivity|].
    apply IH; [lia|]. intros j s' x Hs Hx. apply (H (Datatypes.S j)); auto.
  Qed.

  Theorem multi_household_value : forall (m m' : multi S Y) name v, mcoherent m ->
    (forall s x, getter name s = Ok x -> length x = nhh s) ->
    multi_get getter name m = Ok (v, m') ->
    length v = total_nat (map nhh (subs m)) /\
    forall i s k, at_ (subs m) i s -> (k < nhh s)%nat ->
      exists x y, getter name s = Ok x /\ at_ x k y /\ at_ v (first_household (subs m) i + k) y /\
        multi_get_i getter name (first_household (subs m) i + k) m = Ok (y, m').
  Proof.
    intros m m' name v Hc Hlen H. pose proof H as H0.
    apply multi_get_spec in H as (_ & _ & _ & vs & Hl & -> & Hn); auto.
    assert (Hls : forall j s x, at_ (subs m) j s -> at_ vs j x -> length x = nhh s).
    { intros j s x Hs Hx. destruct (Hn j s Hs) as (x' & Hx' & Hg). rewrite (at_fun _ _ _ _ _ Hx Hx'). auto. }
    split.
    - exact (concat_total Y (subs m) vs Hl Hls).
    - intros i s k Hs Hk. destruct (Hn i s Hs) as (x & Hx & Hg).
      destruct (lt_at _ x k) as [y Hy]; [rewrite (Hlen s x Hg); auto|].
      exists x, y. split; [exact Hg|]. split; [exact Hy|].
      assert (G : at_ (concat vs) (first_household (subs m) i + k) y).
      { rewrite <- (firstn_lengths Y (subs m) vs i Hl Hls). eapply concat_at; eauto. }
      split; [exact G|]. unfold multi_get_i. rewrite H0. simpl. unfold at_ in G. rewrite G. reflexivity.
  Qed.

  (** *** Subgroup masks *)

  Lemma is_subgroup_iff : forall req s, is_subgroup subgroup veqb req s = true <->
    forall k v, In (k, v) req -> dget String.eqb (subgroup s) k = Some v.
  Proof.
    intros req s. unfold is_subgroup. rewrite forallb_forall. split.
    - intros H k v Hin. specialize (H _ Hin). simpl in H.
      destruct (dget String.eqb (subgroup s) k) as [w|]; [|discriminate]. apply veqb_eq in H. congruence.
    - intros H [k v] Hin. simpl. rewrite (H k v Hin). apply veqb_eq; auto.
  Qed.

  Theorem mask_spec : forall req (m : multi S Y),
    length (get_mask_subgroup nhh subgroup veqb req m) = total_nat (map nhh (subs m)) /\
    forall i s k, at_ (subs m) i s -> (k < nhh s)%nat ->
      exists b, at_ (get_mask_subgroup nhh subgroup veqb req m) (first_household (subs m) i + k) b /\
        (b = true <-> forall key v, In (key, v) req -> dget String.eqb (subgroup s) key = Some v).
  Proof.
    intros req m. unfold get_mask_subgroup.
    set (vs := map (fun s => repeat (is_subgroup subgroup veqb req s) (nhh s)) (subs m)).
    assert (Hl : length vs = length (subs m)) by apply map_length.
    assert (Hat : forall j s, at_ (subs m) j s -> at_ vs j (repeat (is_subgroup subgroup veqb req s) (nhh s))).
    { intros j s Hs. unfold vs, at_ in *. rewrite nth_error_map, Hs. reflexivity. }
    assert (Hls : forall j s x, at_ (subs m) j s -> at_ vs j x -> length x = nhh s).
    { intros j s x Hs Hx. rewrite (at_fun _ _ _ _ _ Hx (Hat j s Hs)). apply repeat_length. }
    split.
    - exact (concat_total bool (subs m) vs Hl Hls).
    - intros i s k Hs Hk. exists (is_subgroup subgroup veqb req s). split; [|apply is_subgroup_iff].
      rewrite <- (firstn_lengths bool (subs m) vs i Hl Hls). eapply concat_at; [apply Hat; eauto|].
      unfold at_. destruct (nth_error (repeat (is_subgroup subgroup veqb req s) (nhh s)) k) as [b|] eqn:E.
      + apply nth_error_In, repeat_spec in E. congruence.
      + apply nth_error_None in E. rewrite repeat_length in E. lia.
  Qed.

  Lemma multi_n_total : forall l, multi_n nhh l = total_nat (map nhh l).
  Proof. induction l; simpl; auto. Qed.
End MultiProofs.
