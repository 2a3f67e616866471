(** * Proofs about the configuration tables of CREST. *)

From Coq Require Import String List ZArith QArith Bool Arith Lia.
From Verif Require Import Prelude PreludeFacts SpecBase SpecBaseFacts Help_Proofs Sampling_Spec Sampling_Model Sampling_Proofs Sheet_Model Sheet_Spec Sheet_Proofs
  Heat_Model Heat_Spec Fit_Model Fit_Spec Fit_Proofs Conf_Model Conf_Spec.
Import ListNotations.
Open Scope string_scope.
Open Scope list_scope.

Lemma in_once : forall A (d : list (string * list A)) k c c', once d -> In (k, c) d -> In (k, c') d -> c = c'.
Proof.
  unfold once. induction d as [|[k1 c1] d IH]; cbn [map fst]; intros k c c' N H H'; [destruct H|]. inversion N as [|? ? N1 N2]; subst.
  destruct H as [H|H], H' as [H'|H'].
  - congruence.
  - exfalso. apply N1. injection H as -> ->. apply in_map_iff. exists (k, c'). split; [reflexivity|exact H'].
  - exfalso. apply N1. injection H' as -> ->. apply in_map_iff. exists (k, c). split; [reflexivity|exact H].
  - exact (IH _ _ _ N2 H H').
Qed.

Lemma wcol_in : forall A (d : list (string * list A)) k c, wcol d k = Ok c -> In (k, c) d.
Proof. unfold wcol. intros A d k c H. destruct (dget String.eqb d k) as [c0|] eqn:E; [|discriminate]. assert (Ec : c0 = c) by congruence. subst c0. exact (PreludeFacts.dget_in _ _ String.eqb String.eqb_eq _ _ _ E). Qed.

Lemma wcol_holds : forall A (d : list (string * list A)) k c i v, once d -> wcol d k = Ok c -> (at_ c i v <-> holds d k i v).
Proof.
  intros A d k c i v N H. apply wcol_in in H. split; [intro A1; exists c; auto|]. intros (c' & I & A1). rewrite (in_once _ _ _ _ _ N H I). exact A1.
Qed.

Lemma wcol_has : forall A (d : list (string * list A)) n keys k, has_columns d n keys -> In k keys -> exists c, wcol d k = Ok c /\ List.length c = n.
Proof.
  intros A d n keys k H I. destruct (H k I) as [(c0 & Hc0) L]. unfold wcol. destruct (dget String.eqb d k) as [c|] eqn:E.
  - exists c. split; [reflexivity|]. apply L. exact (PreludeFacts.dget_in _ _ String.eqb String.eqb_eq _ _ _ E).
  - exfalso. apply (PreludeFacts.dget_none_notin _ _ String.eqb String.eqb_eq) in E. apply E. apply in_map_iff. exists (k, c0). split; [reflexivity|exact Hc0].
Qed.

Lemma wcol_missing : forall A (d : list (string * list A)) k, (forall c, ~ In (k, c) d) -> wcol d k = Err KeyError.
Proof. intros A d k H. destruct (wcol d k) as [c|e] eqn:E; [destruct (H c); apply wcol_in; exact E|]. unfold wcol in E. destruct (dget String.eqb d k); [discriminate|congruence]. Qed.

Lemma in_cut : forall A n (d : list (string * list A)) k c, In (k, c) (cut n d) <-> exists c0, In (k, c0) d /\ c = firstn n c0.
Proof.
  intros A n d k c. unfold cut. rewrite in_map_iff. split.
  - intros ([k0 c0] & E & I). cbn [fst snd] in E. injection E as -> <-. exists c0. auto.
  - intros (c0 & I & ->). exists (k, c0). auto.
Qed.

Lemma once_cut : forall A n (d : list (string * list A)), once d -> once (cut n d).
Proof. intros A n d H. unfold once, cut. rewrite map_map. exact H. Qed.

Lemma firstn_at : forall A (l : list A) n i v, at_ (firstn n l) i v <-> (i < n)%nat /\ at_ l i v.
Proof.
  unfold at_. intros A l. induction l as [|x l IH]; intros n i v; destruct n as [|n]; cbn [firstn].
  - split; [destruct i; discriminate|lia].
  - split; [destruct i; discriminate|intros [_ H]; destruct i; discriminate].
  - split; [destruct i; discriminate|lia].
  - destruct i as [|i]; cbn [nth_error]; [split; [intro; split; [lia|auto]|tauto]|]. rewrite IH. split; intros [? ?]; split; auto; lia.
Qed.

Lemma cut_top : forall A (d : list (string * list A)) k n c, once d -> wcol (cut n d) k = Ok c -> top d k n c.
Proof.
  intros A d k n c N H i v. apply wcol_in, in_cut in H. destruct H as (c0 & I & ->). rewrite firstn_at.
  split; intros [L X]; (split; [exact L|]); [exists c0; auto|]. destruct X as (c' & I' & X). rewrite (in_once _ _ _ _ _ N I I'). exact X.
Qed.

Lemma cut_has : forall A (d : list (string * list A)) n k keys, has_columns d k keys -> has_columns (cut n d) (Nat.min n k) keys.
Proof.
  intros A d n k keys H key I. destruct (H key I) as [(c & Hc) L]. split; [exists (firstn n c); apply in_cut; eauto|].
  intros c' Hc'. apply in_cut in Hc'. destruct Hc' as (c0 & I0 & ->). rewrite firstn_length, (L c0 I0). reflexivity.
Qed.

Lemma cut_missing : forall A (d : list (string * list A)) n k, (forall c, ~ In (k, c) d) -> wcol (cut n d) k = Err KeyError.
Proof. intros A d n k H. apply wcol_missing. intros c I. apply in_cut in I. destruct I as (c0 & I & _). exact (H c0 I). Qed.

Lemma has_sub : forall A (d : list (string * list A)) n keys keys', has_columns d n keys -> (forall k, In k keys' -> In k keys) -> has_columns d n keys'.
Proof. intros A d n keys keys' H S k I. exact (H k (S k I)). Qed.

(** A dictionary written out key by key. *)
Lemma holds_dget : forall A (d : list (string * list A)) k c i v, once d -> dget String.eqb d k = Some c -> (holds d k i v <-> at_ c i v).
Proof. intros A d k c i v N H. symmetry. apply wcol_holds; [exact N|]. unfold wcol. rewrite H. reflexivity. Qed.

Lemma has_dget : forall A (d : list (string * list A)) n keys, once d ->
  (forall k, In k keys -> exists c, dget String.eqb d k = Some c /\ List.length c = n) -> has_columns d n keys.
Proof.
  intros A d n keys N H k I. destruct (H k I) as (c & E & L). apply (PreludeFacts.dget_in _ _ String.eqb String.eqb_eq) in E. split; [exists c; exact E|].
  intros c' I'. rewrite <- (in_once _ _ _ _ _ N E I'). exact L.
Qed.

Ltac next H := match type of H with bind ?X _ = _ => let c := fresh "c" in let E := fresh "E" in destruct X as [c|] eqn:E; [|discriminate]; cbn [bind] in H end.

Fixpoint distinct (l : list string) : bool :=
  match l with [] => true | x :: r => negb (existsb (String.eqb x) r) && distinct r end.
Lemma distinct_once : forall A (d : list (string * list A)), distinct (map fst d) = true -> once d.
Proof.
  intros A d. unfold once. induction (map fst d) as [|x r IH]; cbn [distinct]; intro H; [constructor|]. apply andb_true_iff in H. destruct H as [H1 H2].
  constructor; [|exact (IH H2)]. intro I. apply negb_true_iff in H1. assert (T : existsb (String.eqb x) r = true) by (apply existsb_exists; exists x; split; [exact I|apply String.eqb_refl]). congruence.
Qed.
Ltac nodup := apply distinct_once; vm_compute; reflexivity.

Lemma rows_of : forall version n, heating_rows version = Ok n <-> systems_of version n.
Proof.
  intros version n. unfold heating_rows. split.
  - destruct (String.eqb_spec version "v_2.2") as [->|]; [intro H; assert (E : 3%nat = n) by congruence; subst n; constructor|].
    destruct (String.eqb_spec version "v_2.3.3") as [->|]; [intro H; assert (E : 5%nat = n) by congruence; subst n; constructor|discriminate].
  - intros []; reflexivity.
Qed.

Lemma is_two_iff : forall x, is_two x = true <-> val x 2.
Proof. intros [q|]; unfold val; cbn [is_two]; [rewrite Qeq_bool_iff; split; [eauto|intros (v & E & H); congruence]|split; [discriminate|intros (v & E & _); discriminate]]. Qed.

Lemma prefix_iff : forall p s, String.prefix p s = true <-> exists rest, s = (p ++ rest)%string.
Proof.
  induction p as [|a p IH]; intros s; [split; [exists s; reflexivity|destruct s; reflexivity]|].
  destruct s as [|b s]; [split; [discriminate|intros (r & E); discriminate]|].
  change (String.prefix (String a p) (String b s)) with (if Ascii.ascii_dec a b then String.prefix p s else false).
  destruct (Ascii.ascii_dec a b) as [->|N].
  - rewrite IH. split; intros (r & E); exists r; [rewrite E; reflexivity|]. cbn [String.append] in E. congruence.
  - split; [discriminate|]. intros (r & E). cbn [String.append] in E. congruence.
Qed.

Lemma emitters_of : forall version h, emitters_heading version h <->
  h = (if String.prefix "v_2." version then "Heat transfer coefficient of emitters" else "Heat transfer coefficient of heat emitters").
Proof.
  intros version h. destruct (String.prefix "v_2." version) eqn:E.
  - apply prefix_iff in E. split; [intros Hh; inversion Hh as [r|v N]; subst; [reflexivity|destruct E as (r & E); destruct (N r E)]|intros ->; destruct E as (r & ->); constructor].
  - assert (N : forall r, version <> ("v_2." ++ r)%string) by (intros r Er; assert (T : String.prefix "v_2." version = true) by (apply prefix_iff; eauto); congruence).
    split; [intros Hh; inversion Hh as [r|v Nv]; subst; [destruct (N r eq_refl)|reflexivity]|intros ->; constructor; exact N].
Qed.
