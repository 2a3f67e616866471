(** * Proofs about simulators of subgroups. *)

From Coq Require Import String List ZArith Bool Lia Arith.
From Verif Require Import Prelude PreludeFacts SpecBase SpecBaseFacts Multi_Model Groups_Model Groups_Spec.
Import ListNotations.
Local Open Scope Z_scope.

Section Groups.
  Variables (S G Y : Type).
  Variable nhh : S -> nat.
  Variable create : Z -> G -> result S.

  Let made := fun gn : G * Z => call_sub (SparseClass create) (snd gn) (fst gn).
  Let chosen := fun groups numbers => filter (fun gn : G * Z => 0 <? snd gn) (combine groups numbers).

  Lemma made_at : forall groups numbers sims i g n, mapM made (chosen groups numbers) = Ok sims ->
    at_ groups i g -> at_ numbers i n -> 0 < n -> exists s, create n g = Ok s /\ at_ sims (rank numbers i) s.
  Proof.
    unfold chosen. induction groups as [|g0 groups IH]; intros numbers sims i g n E Hg Hn Hp; [destruct i; discriminate|].
    destruct numbers as [|n0 numbers]; [destruct i; discriminate|]. cbn [combine filter snd] in E. destruct i as [|i].
    - unfold at_ in Hg, Hn. simpl in Hg, Hn. injection Hg as ->. injection Hn as ->. destruct (Z.ltb_spec 0 n) as [_|]; [|lia].
      cbn [mapM] in E. unfold made at 1 in E. cbn in E. destruct (create n g) as [s|]; [|discriminate]. cbn in E. destruct (mapM made _) as [l|]; [|discriminate].
      injection E as <-. exists s. split; auto. reflexivity.
    - unfold at_ in Hg, Hn. simpl in Hg, Hn. cbn [rank]. destruct (0 <? n0).
      + cbn [mapM] in E. destruct (made (g0, n0)) as [s|]; [|discriminate]. cbn [bind] in E. destruct (mapM made _) as [l|] eqn:El; [|discriminate].
        injection E as <-. destruct (IH numbers l i g n El Hg Hn Hp) as (s' & H1 & H2). exists s'. auto.
      + eapply IH; eauto.
  Qed.

  Lemma made_length : forall groups numbers sims, mapM made (chosen groups numbers) = Ok sims ->
    length sims = rank numbers (Nat.min (length groups) (length numbers)).
  Proof.
    unfold chosen. induction groups as [|g0 groups IH]; intros numbers sims E; [injection E as <-; destruct numbers; reflexivity|].
    destruct numbers as [|n0 numbers]; [injection E as <-; reflexivity|]. cbn [combine filter snd length Nat.min rank] in *. destruct (0 <? n0).
    - cbn [mapM] in E. destruct (made (g0, n0)) as [s|]; [|discriminate]. cbn [bind] in E. destruct (mapM made _) as [l|] eqn:El; [|discriminate].
      injection E as <-. simpl. f_equal. apply IH. auto.
    - apply IH. auto.
  Qed.

  Hypothesis sized : forall n g s, create n g = Ok s -> nhh s = Z.to_nat n.

  Lemma made_total : forall groups numbers sims, mapM made (chosen groups numbers) = Ok sims ->
    multi_n nhh sims = before numbers (Nat.min (length groups) (length numbers)).
  Proof.
    unfold chosen. induction groups as [|g0 groups IH]; intros numbers sims E; [injection E as <-; destruct numbers; reflexivity|].
    destruct numbers as [|n0 numbers]; [injection E as <-; reflexivity|]. cbn [combine filter snd length Nat.min before] in *. destruct (Z.ltb_spec 0 n0).
    - cbn [mapM] in E. unfold made at 1 in E. cbn in E. destruct (create n0 g0) as [s|] eqn:Ec; [|discriminate]. cbn in E. destruct (mapM made _) as [l|] eqn:El; [|discriminate].
      injection E as <-. cbn. rewrite (sized _ _ _ Ec). f_equal. apply (IH _ _ El).
    - replace (Z.to_nat n0) with O by lia. apply IH. auto.
  Qed.

  (** The households of each subgroup are together. *)
  Variable f : S -> result (list Y).
  Hypothesis size_f : forall s l, f s = Ok l -> length l = nhh s.

  Lemma made_slice : forall groups numbers sims ls i g n, mapM made (chosen groups numbers) = Ok sims -> mapM f sims = Ok ls ->
    at_ groups i g -> at_ numbers i n -> 0 < n ->
    exists s l, create n g = Ok s /\ f s = Ok l /\ length l = Z.to_nat n /\
      forall h y, (h < Z.to_nat n)%nat -> (at_ (List.concat ls) (before numbers i + h) y <-> at_ l h y).
  Proof.
    unfold chosen. induction groups as [|g0 groups IH]; intros numbers sims ls i g n E F Hg Hn Hp; [destruct i; discriminate|].
    destruct numbers as [|n0 numbers]; [destruct i; discriminate|]. cbn [combine filter snd] in E. destruct i as [|i].
    - unfold at_ in Hg, Hn. simpl in Hg, Hn. injection Hg as ->. injection Hn as ->. destruct (Z.ltb_spec 0 n) as [_|]; [|lia].
      cbn [mapM] in E. unfold made at 1 in E. cbn in E. destruct (create n g) as [s|] eqn:Ec; [|discriminate]. cbn in E. destruct (mapM made _) as [l|]; [|discriminate].
      injection E as <-. cbn [mapM] in F. destruct (f s) as [y|] eqn:Ef; [|discriminate]. cbn [bind] in F. destruct (mapM f l) as [ys|]; [|discriminate]. injection F as <-.
      exists s, y. assert (L : length y = Z.to_nat n) by (rewrite (size_f _ _ Ef); eapply sized; eauto).
      repeat (split; auto); cbn [before List.concat]; unfold at_; rewrite nth_error_app1 by lia; auto.
    - unfold at_ in Hg, Hn. simpl in Hg, Hn. cbn [before]. destruct (Z.ltb_spec 0 n0) as [P|P].
      + cbn [mapM] in E. unfold made at 1 in E. cbn in E. destruct (create n0 g0) as [s|] eqn:Ec; [|discriminate]. cbn in E. destruct (mapM made _) as [l|] eqn:El; [|discriminate].
        injection E as <-. cbn [mapM] in F. destruct (f s) as [y|] eqn:Ef; [|discriminate]. cbn [bind] in F. destruct (mapM f l) as [ys|] eqn:Ey; [|discriminate]. injection F as <-.
        destruct (IH numbers l ys i g n El Ey Hg Hn Hp) as (s' & l' & H1 & H2 & H3 & H4). exists s', l'. split; auto. split; auto. split; auto.
        intros h v Hh. rewrite <- (H4 h v Hh). cbn [List.concat]. unfold at_.
        assert (L : length y = Z.to_nat n0) by (rewrite (size_f _ _ Ef); eapply sized; eauto).
        rewrite nth_error_app2 by lia. replace (Z.to_nat n0 + before numbers i + h - length y)%nat with (before numbers i + h)%nat by lia. tauto.
      + replace (Z.to_nat n0) with O by lia. eapply IH; eauto.
  Qed.
End Groups.

Lemma init_ok : forall S G Y (nhh : S -> nat) (create : Z -> G -> result S) groups numbers m,
  groups_init Y nhh (SparseClass create) groups numbers = Ok m ->
  mapM (fun gn : G * Z => call_sub (SparseClass create) (snd gn) (fst gn)) (filter (fun gn : G * Z => 0 <? snd gn) (combine groups numbers)) = Ok (subs m) /\
  multi_n nhh (subs m) <> O /\ mctr m = O /\ mcache m = [].
Proof.
  intros S G Y nhh create groups numbers m H. unfold groups_init in H. destruct (mapM _ _) as [sims|]; [|discriminate]. cbn [bind] in H.
  unfold multi_init in H. destruct (Nat.eqb_spec (multi_n nhh sims) 0) as [|Hn]; [discriminate|]. injection H as <-. auto.
Qed.

Lemma filter_none : forall G (l : list (G * Z)), (forall gn, In gn l -> snd gn <= 0) -> filter (fun gn => 0 <? snd gn) l = [].
Proof.
  induction l as [|gn l IH]; intro H; auto. simpl. destruct (Z.ltb_spec 0 (snd gn)) as [P|]; [pose proof (H gn (or_introl eq_refl)); lia|].
  apply IH. intros; apply H; right; auto.
Qed.
