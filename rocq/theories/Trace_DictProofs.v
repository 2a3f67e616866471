(** * Proofs about the dictionaries of measured profiles. *)

From Coq Require Import String List ZArith QArith Bool Arith Lia.
From Verif Require Import Prelude PreludeFacts SpecBase SpecBaseFacts Trace_Model Trace_Spec Trace_Proofs.
Import ListNotations.

Notation sget := (dget String.eqb).

Lemma get_same : forall V (d : list (string * V)) k v, sget (dset String.eqb d k v) k = Some v.
Proof. intros. apply PreludeFacts.dget_dset_same. apply String.eqb_eq. Qed.
Lemma get_other : forall V (d : list (string * V)) k v k', k' <> k -> sget (dset String.eqb d k v) k' = sget d k'.
Proof. intros. apply PreludeFacts.dget_dset_other; [apply String.eqb_eq|assumption]. Qed.

Lemma keys_dset : forall V (d : list (string * V)) k v key, In key (map fst (dset String.eqb d k v)) <-> key = k \/ In key (map fst d).
Proof.
  intros V d k v key. induction d as [|[k' v'] d IH]; simpl; [intuition|].
  destruct (String.eqb_spec k k') as [->|N]; simpl; [intuition|]. rewrite IH. intuition.
Qed.

Lemma nodup_dset : forall V (d : list (string * V)) k v, NoDup (map fst d) -> NoDup (map fst (dset String.eqb d k v)).
Proof.
  intros V d k v. induction d as [|[k' v'] d IH]; simpl; intro H; [repeat constructor; simpl; tauto|].
  inversion H as [|? ? Hn Hd]; subst. destruct (String.eqb_spec k k') as [->|N]; simpl; [constructor; assumption|].
  constructor; [|auto]. intro X. apply keys_dset in X as [->|X]; [congruence|contradiction].
Qed.

Lemma in_get : forall V (d : list (string * V)) k v, NoDup (map fst d) -> In (k, v) d -> sget d k = Some v.
Proof.
  intros V d k v. induction d as [|[k' v'] d IH]; simpl; intros N H; [contradiction|]. inversion N as [|? ? Hn Hd]; subst.
  destruct H as [H|H]; [injection H as -> ->; rewrite String.eqb_refl; reflexivity|].
  destruct (String.eqb_spec k k') as [->|_]; [exfalso; apply Hn; apply in_map with (f := fst) in H; exact H|auto].
Qed.

Lemma get_in : forall V (d : list (string * V)) k v, sget d k = Some v -> In (k, v) d.
Proof. intros. eapply dget_in; [apply String.eqb_eq|eassumption]. Qed.

(** ** Full profiles *)

Lemma add_files_spec : forall step files m m', add_files step m files = Ok m' ->
  (NoDup (map fst m) -> NoDup (map fst m')) /\
  (forall f p, sget m' f = Some p -> sget m f = Some p \/ exists r, In (f, r) files /\ parse_profile step r = Ok p) /\
  (forall f p, sget m f = Some p -> (forall r, ~ In (f, r) files) -> sget m' f = Some p) /\
  (forall f r, In (f, r) files -> (exists p, parse_profile step r = Ok p) /\ exists p, sget m' f = Some p).
Proof.
  intro step. induction files as [|[f0 r0] files IH]; intros m m' H.
  - injection H as <-. split; [auto|]. split; [auto|]. split; [auto|]. intros f r [].
  - cbn [add_files] in H. destruct (parse_profile step r0) as [p0|] eqn:Ep; [|discriminate]. cbn [bind] in H.
    destruct (IH _ _ H) as (A & B & C & D). split; [|split; [|split]].
    + intro N. apply A, nodup_dset, N.
    + intros f p Hp. destruct (B f p Hp) as [X|(r & X & Y)]; [|right; exists r; split; [right; exact X|exact Y]].
      destruct (String.eqb_spec f f0) as [->|N]; [rewrite get_same in X; injection X as <-; right; exists r0; split; [left; reflexivity|exact Ep]|].
      rewrite get_other in X by exact N. left. exact X.
    + intros f p Hp Hn. apply C; [|intros r X; apply (Hn r); right; exact X].
      rewrite get_other; [exact Hp|]. intros ->. apply (Hn r0). left. reflexivity.
    + intros f r [X|X]; [|apply D; exact X]. injection X as <- <-. split; [exists p0; exact Ep|].
      destruct (in_dec string_dec f0 (map fst files)) as [I|I].
      * apply in_map_iff in I as ([f1 r1] & E & I). cbn in E. subst f1. exact (proj2 (D f0 r1 I)).
      * exists p0. apply C; [apply get_same|]. intros r X. apply I. apply in_map_iff. exists (f0, r). auto.
Qed.

Lemma add_files_ok : forall step files m, (forall f r, In (f, r) files -> exists p, parse_profile step r = Ok p) ->
  exists m', add_files step m files = Ok m'.
Proof.
  intro step. induction files as [|[f r] files IH]; intros m H; [cbn; eauto|]. cbn [add_files].
  destruct (H f r (or_introl eq_refl)) as [p ->]. cbn [bind]. apply IH. intros f' r' X. apply (H f' r'). right. exact X.
Qed.

Definition tidy (d : profiles) : Prop := NoDup (map fst d) /\ forall k m, In (k, m) d -> NoDup (map fst m).

Lemma in_dset : forall V (d : list (string * V)) k v k' v', In (k', v') (dset String.eqb d k v) -> (k' = k /\ v' = v) \/ In (k', v') d.
Proof.
  intros V d k v k' v'. induction d as [|[k0 v0] d IH]; simpl; [intros [H|[]]; injection H as <- <-; auto|].
  destruct (String.eqb_spec k k0) as [->|N]; simpl; intros [H|H]; auto.
  - injection H as <- <-. auto.
  - destruct (IH H) as [|]; auto.
Qed.

Lemma full_spec : forall table step dirs d d', full_profiles table step d dirs = Ok d' ->
  (tidy d -> tidy d') /\
  (forall ty f p, entry d' ty f p -> entry d ty f p \/ exists r, recorded table dirs ty f r /\ parse_profile step r = Ok p) /\
  (forall ty f p, entry d ty f p -> (forall r, ~ recorded table dirs ty f r) -> entry d' ty f p) /\
  (forall ty f r, recorded table dirs ty f r -> (exists p, parse_profile step r = Ok p) /\ exists p, entry d' ty f p) /\
  (forall ty, sget d' ty <> None <-> sget d ty <> None \/ exists dir files, In (dir, files) dirs /\ sget table dir = Some ty).
Proof.
  intros table step. induction dirs as [|[dir files] dirs IH]; intros d d' H.
  - injection H as <-. split; [auto|]. split; [auto|]. split; [auto|]. split; [intros ty f r (dir & fs & [] & _)|].
    intro ty. split; [auto|]. intros [X|(dir & fs & [] & _)]. exact X.
  - cbn [full_profiles] in H.
    assert (Rt : forall ty f r, recorded table ((dir, files) :: dirs) ty f r <->
      recorded table dirs ty f r \/ (sget table dir = Some ty /\ In (f, r) files)).
    { intros ty f r. unfold recorded. split.
      - intros (dir' & fs & [X|X] & T & I); [injection X as <- <-; right; auto|left; exists dir', fs; auto].
      - intros [(dir' & fs & X & T & I)|[T I]]; [exists dir', fs; split; [right; exact X|auto]|exists dir, files; split; [left; reflexivity|auto]]. }
    destruct (sget table dir) as [name|] eqn:Et.
    + set (m := match sget d name with Some m => m | None => [] end) in *.
      destruct (add_files step m files) as [m1|] eqn:Ea; [|discriminate]. cbn [bind] in H.
      destruct (add_files_spec _ _ _ _ Ea) as (A1 & A2 & A3 & A4).
      destruct (IH _ _ H) as (B0 & B1 & B2 & B3 & B4). split; [|split; [|split; [|split]]].
      * intros [T1 T2]. apply B0. split; [apply nodup_dset, T1|]. intros k m' Hin. apply in_dset in Hin as [[-> ->]|Hin]; [|exact (T2 k m' Hin)].
        apply A1. unfold m. destruct (sget d name) as [m0|] eqn:E0; [apply get_in in E0; exact (T2 name m0 E0)|constructor].
      * intros ty f p Hp. destruct (B1 ty f p Hp) as [X|(r & X & Y)]; [|right; exists r; split; [apply Rt; left; exact X|exact Y]].
        destruct X as (m' & M1 & M2). destruct (String.eqb_spec ty name) as [->|N].
        -- rewrite get_same in M1. injection M1 as <-. destruct (A2 f p M2) as [X|(r & X & Y)].
           ++ left. unfold m in X. destruct (sget d name) as [m0|] eqn:E0; [exists m0; auto|discriminate].
           ++ right. exists r. split; [apply Rt; right; auto|exact Y].
        -- rewrite get_other in M1 by exact N. left. exists m'. auto.
      * intros ty f p (m' & M1 & M2) Hn. apply B2; [|intros r X; apply (Hn r), Rt; left; exact X].
        destruct (String.eqb_spec ty name) as [->|N].
        -- exists m1. rewrite get_same. split; [reflexivity|]. apply A3.
           ++ unfold m. rewrite M1. exact M2.
           ++ intros r X. apply (Hn r), Rt. right. auto.
        -- exists m'. rewrite get_other by exact N. auto.
      * intros ty f r Hr. apply Rt in Hr as [Hr|[T I]]; [exact (B3 ty f r Hr)|]. injection T as ->.
        destruct (A4 f r I) as [Hp (p1 & Hp1)]. split; [exact Hp|].
        (* either recorded again later, or kept *)
        destruct (in_dec string_dec f (flat_map (fun df => match sget table (fst df) with Some n => if String.eqb n ty then map fst (snd df) else [] | None => [] end) dirs)) as [X|X].
        -- apply in_flat_map in X as ([dir' fs] & X1 & X2). cbn [fst snd] in X2. destruct (sget table dir') as [n|] eqn:En; [|contradiction].
           destruct (String.eqb_spec n ty) as [->|]; [|contradiction]. apply in_map_iff in X2 as ([f' r'] & E & I2). cbn in E. subst f'.
           apply (B3 ty f r'). exists dir', fs. auto.
        -- exists p1. apply B2; [exists m1; rewrite get_same; auto|]. intros r' (dir' & fs & Y1 & Y2 & Y3). apply X. apply in_flat_map.
           exists (dir', fs). split; [exact Y1|]. cbn [fst snd]. rewrite Y2, String.eqb_refl. apply in_map_iff. exists (f, r'). auto.
      * intro ty. rewrite B4. destruct (String.eqb_spec ty name) as [->|N].
        -- rewrite get_same. split; [|intros _; left; discriminate]. intros _. right. exists dir, files. split; [left; reflexivity|exact Et].
        -- rewrite get_other by exact N. split; (intros [X|(dir' & fs & X & Y)]; [left; exact X|]).
           ++ right. exists dir', fs. split; [right; exact X|exact Y].
           ++ destruct X as [X|X]; [injection X as <- <-; congruence|right; exists dir', fs; auto].
    + destruct (IH _ _ H) as (B0 & B1 & B2 & B3 & B4). split; [exact B0|]. split; [|split; [|split]].
      * intros ty f p Hp. destruct (B1 ty f p Hp) as [X|(r & X & Y)]; [auto|right; exists r; split; [apply Rt; left; exact X|exact Y]].
      * intros ty f p Hp Hn. apply B2; [exact Hp|]. intros r X. apply (Hn r), Rt. left. exact X.
      * intros ty f r Hr. apply Rt in Hr as [Hr|[T _]]; [exact (B3 ty f r Hr)|discriminate].
      * intro ty. rewrite B4. split; (intros [X|(dir' & fs & X & Y)]; [left; exact X|]).
        -- right. exists dir', fs. split; [right; exact X|exact Y].
        -- destruct X as [X|X]; [injection X as <- <-; congruence|right; exists dir', fs; auto].
Qed.

Lemma full_ok : forall table step dirs d, (forall ty f r, recorded table dirs ty f r -> exists p, parse_profile step r = Ok p) ->
  exists d', full_profiles table step d dirs = Ok d'.
Proof.
  intros table step. induction dirs as [|[dir files] dirs IH]; intros d H; [cbn; eauto|]. cbn [full_profiles].
  assert (T : forall ty f r, recorded table dirs ty f r -> exists p, parse_profile step r = Ok p).
  { intros ty f r (dir' & fs & X & Y). apply (H ty f r). exists dir', fs. split; [right; exact X|exact Y]. }
  destruct (sget table dir) as [name|] eqn:E; [|apply IH; exact T].
  match goal with |- context[add_files step ?m files] => destruct (add_files_ok step files m) as [m1 ->] end.
  - intros f r I. apply (H name f r). exists dir, files. split; [left; reflexivity|auto].
  - cbn [bind]. apply IH. exact T.
Qed.

(** ** Switched-on profiles *)

Lemma chosen_in : forall f chosen, existsb (String.eqb f) chosen = true <-> In f chosen.
Proof.
  intros f chosen. rewrite existsb_exists. split.
  - intros (x & I & E). apply String.eqb_eq in E. subst. exact I.
  - intro I. exists f. split; [exact I|apply String.eqb_refl].
Qed.

Lemma entry_set : forall (d : profiles) type f p, let m := match sget d type with Some m => m | None => [] end in
  forall ty g q, entry (dset String.eqb d type (dset String.eqb m f p)) ty g q <->
    (ty = type /\ g = f /\ q = p) \/ (~ (ty = type /\ g = f) /\ entry d ty g q).
Proof.
  intros d type f p m ty g q. unfold entry. destruct (String.eqb_spec ty type) as [->|N].
  - split.
    + intros (m' & M1 & M2). rewrite get_same in M1. injection M1 as <-. destruct (String.eqb_spec g f) as [->|Nf].
      * rewrite get_same in M2. injection M2 as <-. auto.
      * rewrite get_other in M2 by exact Nf. right. split; [tauto|]. unfold m in M2. destruct (sget d type) as [m0|]; [eauto|discriminate].
    + rewrite get_same. intros [(_ & -> & ->)|(Nf & m0 & M1 & M2)].
      * eexists. split; [reflexivity|]. apply get_same.
      * eexists. split; [reflexivity|]. rewrite get_other by tauto. unfold m. rewrite M1. exact M2.
  - rewrite get_other by exact N. split; [intro H; right; split; [tauto|exact H]|]. intros [(-> & _)|(_ & H)]; [congruence|exact H].
Qed.

Lemma on_files_spec : forall chosen type loads d d', NoDup (map fst loads) -> on_files chosen d type loads = Ok d' ->
  (forall ty f p, entry d' ty f p -> entry d ty f p \/ (ty = type /\ In f chosen /\ exists load, In (f, load) loads /\ crop load = Ok p)) /\
  (forall ty f p, entry d ty f p -> ty <> type \/ ~ In f (map fst loads) -> entry d' ty f p) /\
  (forall f load, In f chosen -> In (f, load) loads -> exists p, crop load = Ok p /\ entry d' type f p).
Proof.
  intros chosen type. induction loads as [|[f0 l0] loads IH]; intros d d' N H.
  - injection H as <-. split; [auto|]. split; [auto|]. intros f load _ [].
  - cbn [map fst] in N. inversion N as [|? ? Hn N']; subst. cbn [on_files] in H. destruct (existsb (String.eqb f0) chosen) eqn:Ec.
    + apply chosen_in in Ec. destruct (crop l0) as [p0|] eqn:Ep; [|discriminate]. cbn [bind] in H.
      destruct (IH _ _ N' H) as (A & B & C). split; [|split].
      * intros ty f p Hp. destruct (A ty f p Hp) as [X|(X1 & X2 & load & X3 & X4)].
        -- apply entry_set in X as [(-> & -> & ->)|(_ & X)]; [|left; exact X]. right. split; [reflexivity|]. split; [exact Ec|].
           exists l0. split; [left; reflexivity|exact Ep].
        -- right. split; [exact X1|]. split; [exact X2|]. exists load. split; [right; exact X3|exact X4].
      * intros ty f p Hp Hf. apply B; [|cbn [map fst In] in Hf; tauto]. apply entry_set. right. split; [|exact Hp].
        intros [-> ->]. cbn [map fst In] in Hf. tauto.
      * intros f load Hc [X|X]; [|exact (C f load Hc X)]. injection X as <- <-. exists p0. split; [exact Ep|].
        apply B; [apply entry_set; left; auto|right; exact Hn].
    + destruct (IH _ _ N' H) as (A & B & C). split; [|split].
      * intros ty f p Hp. destruct (A ty f p Hp) as [X|(X1 & X2 & load & X3 & X4)]; [auto|].
        right. split; [exact X1|]. split; [exact X2|]. exists load. split; [right; exact X3|exact X4].
      * intros ty f p Hp Hf. apply B; [exact Hp|]. cbn [map fst In] in Hf. tauto.
      * intros f load Hc [X|X]; [|exact (C f load Hc X)]. injection X as <- <-. apply chosen_in in Hc. congruence.
Qed.

Lemma on_spec : forall chosen all d d', tidy all -> on_profiles chosen d all = Ok d' ->
  (forall ty f p, entry d' ty f p -> entry d ty f p \/ (In f chosen /\ exists load, entry all ty f load /\ crop load = Ok p)) /\
  (forall ty f p, entry d ty f p -> ~ In ty (map fst all) -> entry d' ty f p) /\
  (forall ty f load, In f chosen -> entry all ty f load -> exists p, crop load = Ok p /\ entry d' ty f p).
Proof.
  intro chosen. induction all as [|[ty0 loads] all IH]; intros d d' [T1 T2] H.
  - injection H as <-. split; [auto|]. split; [auto|]. intros ty f load _ (m & M & _). discriminate.
  - cbn [map fst] in T1. inversion T1 as [|? ? Hn N']; subst. cbn [on_profiles] in H.
    destruct (on_files chosen d ty0 loads) as [d1|] eqn:E1; [|discriminate]. cbn [bind] in H.
    pose proof (T2 ty0 loads (or_introl eq_refl)) as Nl.
    destruct (on_files_spec _ _ _ _ _ Nl E1) as (A & B & C).
    destruct (IH d1 d' (conj N' (fun k m X => T2 k m (or_intror X))) H) as (A' & B' & C'). split; [|split].
    + intros ty f p Hp. destruct (A' ty f p Hp) as [X|(X1 & load & (m & M1 & M2) & X3)].
      * destruct (A ty f p X) as [Y|(-> & Y2 & load & Y3 & Y4)]; [left; exact Y|]. right. split; [exact Y2|]. exists load. split; [|exact Y4].
        exists loads. cbn [dget]. rewrite String.eqb_refl. split; [reflexivity|]. apply in_get; assumption.
      * right. split; [exact X1|]. exists load. split; [|exact X3]. exists m. cbn [dget].
        destruct (String.eqb_spec ty ty0) as [->|]; [|auto]. exfalso. apply Hn. apply get_in in M1. apply in_map with (f := fst) in M1. exact M1.
    + intros ty f p Hp Hf. cbn [map fst In] in Hf. apply B'; [|tauto]. apply B; [exact Hp|]. left. intro. subst. tauto.
    + intros ty f load Hc (m & M1 & M2). cbn [dget] in M1. destruct (String.eqb_spec ty ty0) as [->|Nt].
      * injection M1 as ->. apply get_in in M2. destruct (C f load Hc M2) as (p & P1 & P2). exists p. split; [exact P1|].
        apply B'; [exact P2|exact Hn].
      * apply (C' ty f load Hc). exists m. auto.
Qed.

Lemma on_files_ok : forall chosen type loads d, (forall f load, In f chosen -> In (f, load) loads -> exists p, crop load = Ok p) ->
  exists d', on_files chosen d type loads = Ok d'.
Proof.
  intros chosen type. induction loads as [|[f l] loads IH]; intros d H; [cbn; eauto|]. cbn [on_files].
  assert (T : forall f load, In f chosen -> In (f, load) loads -> exists p, crop load = Ok p) by (intros f' l' X Y; apply (H f' l' X); right; exact Y).
  destruct (existsb (String.eqb f) chosen) eqn:E; [|apply IH; exact T]. apply chosen_in in E.
  destruct (H f l E (or_introl eq_refl)) as [p ->]. cbn [bind]. apply IH. exact T.
Qed.

Lemma on_ok : forall chosen all d, tidy all -> (forall ty f load, In f chosen -> entry all ty f load -> exists p, crop load = Ok p) ->
  exists d', on_profiles chosen d all = Ok d'.
Proof.
  intro chosen. induction all as [|[ty loads] all IH]; intros d [T1 T2] H; [cbn; eauto|]. cbn [on_profiles].
  cbn [map fst] in T1. inversion T1 as [|? ? Hn N']; subst.
  destruct (on_files_ok chosen ty loads d) as [d1 ->].
  - intros f load Hc I. apply (H ty f load Hc). exists loads. cbn [dget]. rewrite String.eqb_refl. split; [reflexivity|].
    apply in_get; [apply (T2 ty); left; reflexivity|exact I].
  - cbn [bind]. apply IH; [exact (conj N' (fun k m X => T2 k m (or_intror X)))|].
    intros ty' f load Hc (m & M1 & M2). apply (H ty' f load Hc). exists m. cbn [dget].
    destruct (String.eqb_spec ty' ty) as [->|]; [|auto]. exfalso. apply Hn. apply get_in in M1. apply in_map with (f := fst) in M1. exact M1.
Qed.

Lemma on_err : forall chosen all d e, on_profiles chosen d all = Err e -> e = IndexError.
Proof.
  intro chosen. induction all as [|[ty loads] all IH]; intros d e H; [discriminate|]. cbn [on_profiles] in H.
  destruct (on_files chosen d ty loads) as [d1|e1] eqn:E1; cbn [bind] in H; [exact (IH _ _ H)|]. injection H as <-.
  clear -E1. revert d E1. induction loads as [|[f l] loads IH]; intros d E1; [discriminate|]. cbn [on_files] in E1.
  destruct (existsb (String.eqb f) chosen); [|exact (IH _ E1)]. destruct (crop l) as [p|] eqn:Ep; cbn [bind] in E1; [exact (IH _ E1)|].
  injection E1 as <-. exact (crop_err _ _ Ep).
Qed.
