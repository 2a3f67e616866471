(** * Proofs about clearing and about extracted archives. *)

From Coq Require Import String List ZArith Bool Lia.
From Verif Require Import Prelude Folder_Model Folder_Spec Folder_Proofs.
Import ListNotations.
Local Open Scope string_scope.

Local Opaque path_dec.

(** ** The question before erasing everything *)

Lemma ask_answered pre t rest : Forall (fun x => x <> "yes" /\ x <> "no") pre -> t = "yes" \/ t = "no" ->
  ask (pre ++ t :: rest)%list = (Some t, rest, S (List.length pre)).
Proof.
  intros F T. induction F as [|x pre [A B] _ IH]; cbn [app ask].
  - destruct T as [-> | ->]; reflexivity.
  - apply String.eqb_neq in A, B. rewrite A, B. cbn [orb]. rewrite IH. reflexivity.
Qed.

Lemma ask_silent l : Forall (fun x => x <> "yes" /\ x <> "no") l -> ask l = (None, [], S (List.length l)).
Proof.
  intros F. induction F as [|x l [A B] _ IH]; [reflexivity|]. cbn [ask]. apply String.eqb_neq in A, B. rewrite A, B. cbn [orb]. rewrite IH. reflexivity.
Qed.

Lemma clear_version n x s v : sees (on_disk s) v -> v (parsed_path n (Some x)) = Some Dir -> v (parsed_path n None) = Some Dir ->
  does (clear_base n (Some x)) s (renew (parsed_path n (Some x)) v).
Proof. intros V P Q. apply (renew_does (parsed_path n None) x); auto. Qed.

Lemma clear_all n s v pre rest : sees (on_disk s) v -> v (parsed_path n None) = Some Dir -> v [n] = Some Dir ->
  answers s = (pre ++ "yes" :: rest)%list -> Forall (fun x => x <> "yes" /\ x <> "no") pre ->
  exists d, clear_base n None s = ({| on_disk := d; answers := rest; asked := (asked s + S (List.length pre))%nat; visited := visited s |}, None) /\ sees d (renew (parsed_path n None) v).
Proof.
  intros V P Q A F. unfold clear_base. rewrite A, ask_answered by auto. change ("yes" =? "no") with false. cbv iota.
  destruct (renew_does [n] "parsed_data" {| on_disk := on_disk s; answers := rest; asked := (asked s + S (List.length pre))%nat; visited := visited s |} v V P Q) as (d & E & D).
  exists d. split; auto.
Qed.

Lemma renew_at p v : renew p v p = Some Dir.
Proof. apply put_same. Qed.

Lemma renew_in p v x t : renew p v (p ++ x :: t)%list = None.
Proof.
  unfold renew. rewrite put_other; [apply cut_inside; eexists; reflexivity|]. intros E. apply (f_equal (@List.length string)) in E. rewrite app_length in E. cbn in E. lia.
Qed.

Lemma renew_out p v q : ~ inside p q -> renew p v q = v q.
Proof.
  intros H. unfold renew. rewrite put_other; [apply cut_outside; exact H|]. intros ->. apply H. exists []. symmetry. apply app_nil_r.
Qed.

Lemma inside_dec p q : {r | q = (p ++ r)%list} + {~ inside p q}.
Proof.
  destruct (under p q) eqn:E; [left|right; intros H; apply under_inside in H; congruence].
  revert q E. induction p as [|x p IH]; intros q E; cbn in *; [exists q; reflexivity|]. destruct q as [|y q]; [discriminate|].
  apply andb_true_iff in E as [A E]. apply String.eqb_eq in A as ->. destruct (IH q E) as [r ->]. exists r. reflexivity.
Qed.

(** ** Archives *)

Fixpoint way (root rel : path) (v : view) : view :=
  match rel with
  | [] => put root Dir v
  | [_] => put root Dir v
  | x :: rest => way (root ++ [x])%list rest (put root Dir v)
  end.

Lemma way_cases rel : forall root v p, rel <> [] ->
  way root rel v p = v p \/ (exists r x t, rel = (r ++ x :: t)%list /\ p = (root ++ r)%list /\ way root rel v p = Some Dir).
Proof.
  induction rel as [|x rel IH]; intros root v p N; [congruence|]. destruct rel as [|y rel].
  - cbn [way]. unfold put. destruct (path_dec p root) as [->|]; [right|left; reflexivity]. exists [], x, []. rewrite app_nil_r. auto.
  - change (way root (x :: y :: rel) v) with (way (root ++ [x])%list (y :: rel) (put root Dir v)).
    destruct (IH (root ++ [x])%list (put root Dir v) p ltac:(discriminate)) as [E|(r & z & t & E & -> & W)].
    + rewrite E. unfold put. destruct (path_dec p root) as [->|]; [right|left; reflexivity]. exists [], x, (y :: rel). rewrite app_nil_r. auto.
    + right. exists (x :: r), z, t. rewrite E. cbn [app]. rewrite <- app_assoc. cbn [app]. repeat split; auto. rewrite <- E. rewrite <- app_assoc in W. exact W.
Qed.

Lemma way_dir rel : forall root v p, v p = Some Dir -> way root rel v p = Some Dir.
Proof.
  induction rel as [|x rel IH]; intros root v p E; [apply put_dir; exact E|]. destruct rel; [apply put_dir; exact E|]. apply IH. apply put_dir. exact E.
Qed.

Lemma way_on rel : forall root v r x t, rel = (r ++ x :: t)%list -> way root rel v (root ++ r)%list = Some Dir.
Proof.
  induction rel as [|z rel IH]; intros root v r x t E; [destruct r; discriminate|]. destruct r as [|y r].
  - rewrite app_nil_r. destruct rel as [|y rel]; [apply put_same|]. change (way (root ++ [z])%list (y :: rel) (put root Dir v) root = Some Dir). apply way_dir. apply put_same.
  - injection E as -> E. destruct rel as [|w rel]; [destruct r; discriminate|].
    change (way (root ++ [y])%list (w :: rel) (put root Dir v) (root ++ y :: r)%list = Some Dir).
    replace (root ++ y :: r)%list with ((root ++ [y]) ++ r)%list by (rewrite <- app_assoc; reflexivity). eapply IH. exact E.
Qed.

Lemma make_way_does rel : forall root s v, rel <> [] -> root <> [] -> sees (on_disk s) v -> v (removelast root) = Some Dir ->
  (forall r x t, rel = (r ++ x :: t)%list -> free v (root ++ r)%list) -> does (make_way root rel) s (way root rel v).
Proof.
  induction rel as [|x rel IH]; intros root s v N R V P F; [congruence|].
  assert (M : does (make_missing root) s (put root Dir v)).
  { apply make_missing_does; auto. specialize (F [] x rel eq_refl). rewrite app_nil_r in F. exact F. }
  destruct rel as [|y rel]; cbn [make_way way].
  - eapply does_seq; [exact M|]. intros d D. apply does_skip. exact D.
  - eapply does_seq; [exact M|]. intros d D. apply (IH (root ++ [x])%list).
    + discriminate.
    + destruct root; discriminate.
    + exact D.
    + rewrite removelast_last. apply put_same.
    + intros r z t E. rewrite <- app_assoc. cbn [app]. apply free_put; [|auto]. apply (F (x :: r) z t). rewrite E. reflexivity.
Qed.

Definition node_of (o : option string) : node := match o with None => Dir | Some b => File b end.

Definition one (root : path) (m : path * option string) (v : view) : view :=
  put (root ++ fst m)%list (node_of (snd m)) (way root (fst m) v).

Lemma split_last {A} (l : list A) : l <> [] -> exists r x, l = (r ++ [x])%list.
Proof. intros N. destruct (exists_last N) as (r & x & E). eauto. Qed.

Lemma app_grow {A} (l : list A) x t : l <> (l ++ x :: t)%list.
Proof. intros E. apply (f_equal (@List.length A)) in E. rewrite app_length in E. cbn in E. lia. Qed.

Lemma extract_one_does root r o s v : r <> [] -> root <> [] -> sees (on_disk s) v -> v (removelast root) = Some Dir -> fits root [(r, o)] v ->
  does (extract_one root (r, o)) s (one root (r, o) v).
Proof.
  intros N R V P (F1 & F2 & F3). unfold extract_one, one. cbn [fst snd].
  eapply does_seq; [apply make_way_does; eauto; intros r' x t E; apply (F3 r' o x t); rewrite E; cbn; auto|]. intros d D.
  destruct (split_last r N) as (r' & x & E).
  assert (U : way root r v (removelast (root ++ r)%list) = Some Dir).
  { rewrite E, app_assoc, removelast_last. rewrite <- E. eapply way_on. exact E. }
  assert (NN : (root ++ r)%list <> []) by (destruct root; [congruence|discriminate]).
  assert (S : way root r v (root ++ r)%list = v (root ++ r)%list).
  { destruct (way_cases r root v (root ++ r)%list N) as [->|(r1 & x1 & t1 & E1 & E2 & _)]; auto. apply app_inv_head in E2. subst r1. exfalso. eapply app_grow. exact E1. }
  destruct o as [b|]; cbn [node_of].
  - apply write_does; auto. rewrite S. apply (F1 r b). cbn. auto.
  - apply make_missing_dir_does; auto. intros b. rewrite S. apply (F2 r). cbn. auto.
Qed.

Lemma extract_does root ms : root <> [] -> forall s v, proper ms -> fits root ms v -> sees (on_disk s) v -> v (removelast root) = Some Dir ->
  exists u, does (extract root ms) s u /\ unpacked root ms v u /\ (forall p, v p = Some Dir -> u p = Some Dir).
Proof.
  intros R. induction ms as [|[r o] ms IH]; intros s v (ND & NE & NF) F V P.
  - exists v. split; [apply does_skip; exact V|]. split; [|auto]. split; [intros ? ? []|]. split; [intros ? []|]. split; [intros ? ? ? ? []|]. auto.
  - assert (N : r <> []) by (apply (NE r o); cbn; auto). inversion ND as [|? ? NI ND']; subst.
    destruct F as (F1 & F2 & F3).
    assert (D1 : does (extract_one root (r, o)) s (one root (r, o) v)).
    { apply extract_one_does; auto. split; [|split].
      - intros r' b [E|[]]. injection E as <- ->. apply (F1 r b). cbn. auto.
      - intros r' [E|[]]. injection E as <- ->. apply (F2 r). cbn. auto.
      - intros r' o' x t [E|[]]. injection E as E <-. apply (F3 r' o x t). left. rewrite E. reflexivity. }
    set (v1 := one root (r, o) v) in *.
    assert (C : forall p, v1 p = v p \/ (p = (root ++ r)%list /\ v1 p = Some (node_of o)) \/
        (exists r1 x t, r = (r1 ++ x :: t)%list /\ p = (root ++ r1)%list /\ v1 p = Some Dir)).
    { intros p. unfold v1, one, put. cbn [fst snd]. destruct (path_dec p (root ++ r)%list) as [->|K]; [right; left; auto|].
      destruct (way_cases r root v p N) as [->|(r1 & x & t & A & B & E)]; [left; reflexivity|right; right; eauto 8]. }
    assert (Pr : v1 (removelast root) = Some Dir).
    { destruct (split_last root R) as (r0 & x0 & E0). destruct (C (removelast root)) as [->|[[A _]|(r1 & x & t & _ & A & Q)]]; auto.
      exfalso. rewrite E0 in A. rewrite removelast_last, <- app_assoc in A. cbn in A. eapply app_grow. exact A. }
    assert (Kd : forall p, v p = Some Dir -> v1 p = Some Dir).
    { intros p E. destruct (C p) as [->|[[-> A]|(r1 & x & t & _ & _ & Q)]]; auto. destruct o as [b|]; [|exact A]. exfalso. apply (F1 r b); cbn; auto. }
    assert (Fi : fits root ms v1).
    { split; [|split].
      - intros r' b I E. destruct (C (root ++ r')%list) as [A|[[A _]|(r1 & x & t & A & B & _)]].
        + rewrite A in E. apply (F1 r' b); cbn; auto.
        + apply app_inv_head in A. subst r'. apply NI. apply (in_map fst) in I. exact I.
        + apply app_inv_head in B. subst r1. apply (NF r' b r o x t); cbn; auto.
      - intros r' I b E. destruct (C (root ++ r')%list) as [A|[[A _]|(r1 & x & t & A & B & Q)]].
        + rewrite A in E. apply (F2 r' (or_intror I) b). exact E.
        + apply app_inv_head in A. subst r'. apply NI. apply (in_map fst) in I. exact I.
        + congruence.
      - intros r' o' x t I b E. destruct (C (root ++ r')%list) as [A|[[A Q]|(r1 & x1 & t1 & A & B & Q)]].
        + rewrite A in E. apply (F3 r' o' x t (or_intror I) b). exact E.
        + apply app_inv_head in A. subst r'. destruct o as [b'|]; [|cbn in Q; congruence]. apply (NF r b' (r ++ x :: t)%list o' x t); cbn; auto.
        + congruence. }
    destruct D1 as (d & E & D).
    assert (Pp : proper ms). { split; [exact ND'|]. split; [intros ? ? I; eapply NE; cbn; eauto|]. intros r1 b1 r2 o2 x t I1 I2. eapply NF; cbn; eauto. }
    destruct (IH (with_disk s d) v1 Pp Fi D Pr) as (u & (d2 & E2 & D2) & (U1 & U2 & U3 & U4) & K).
    exists u. split; [|split].
    + exists d2. split; [|exact D2]. cbn [extract]. unfold seq_. rewrite E. rewrite E2. destruct s; reflexivity.
    + split; [|split; [|split]].
      * intros r' b [A|I]; [injection A as -> ->|apply U1; exact I]. rewrite U4.
        -- unfold v1, one. apply put_same.
        -- intros r1 o1 t1 I A. apply app_inv_head in A. subst r1. destruct t1 as [|x t1].
           ++ rewrite app_nil_r in I. apply NI. apply (in_map fst) in I. exact I.
           ++ apply (NF r' b (r' ++ x :: t1)%list o1 x t1); cbn; auto.
      * intros r' [A|I]; [injection A as -> ->|apply U2; exact I]. apply K. unfold v1, one. apply put_same.
      * intros r' o' x t [A|I]; [|eapply U3; exact I]. injection A as -> ->. apply K. unfold v1, one. cbn [fst snd]. rewrite put_other.
        -- eapply way_on. reflexivity.
        -- intros A. apply app_inv_head in A. eapply app_grow. exact A.
      * intros p H. rewrite U4; [|intros r1 o1 t1 I; apply (H r1 o1 t1); cbn; auto].
        destruct (C p) as [A|[[A _]|(r1 & x & t & A & B & _)]]; auto.
        -- exfalso. apply (H r o []); [rewrite app_nil_r; cbn; auto|exact A].
        -- exfalso. apply (H r1 o (x :: t)); [rewrite <- A; cbn; auto|exact B].
    + intros p A. apply K. apply Kd. exact A.
Qed.
