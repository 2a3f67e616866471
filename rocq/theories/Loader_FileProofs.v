(** * Proofs about the dataset loaders: names, array files, profiles, climate. *)

From Coq Require Import String Ascii List ZArith QArith Bool Arith Lia.
From Verif Require Import Prelude PreludeFacts Subgroup_Model Subgroup_Spec Subgroup_Proofs Subgroup_NameProofs Loader_Model Loader_Spec Loader_Proofs.
Import ListNotations.
Local Open Scope string_scope.

(** ** Names *)

Lemma prefix_cancel : forall p s t : string, p ++ s = p ++ t -> s = t.
Proof. induction p as [|c p IH]; intros s t H; [exact H|]. cbn in H. injection H as H. apply IH, H. Qed.

Lemma suffix_cancel : forall p s t : string, s ++ p = t ++ p -> s = t.
Proof. intros p s t H. apply chars_inj. apply (f_equal list_ascii_of_string) in H. rewrite !chars_app in H. apply app_inv_tail in H. exact H. Qed.

(** Suffixes that differ at some position from the end. *)
Fixpoint clash (a b : list ascii) : bool :=
  match a, b with x :: a', y :: b' => if Ascii.eqb x y then clash a' b' else true | _, _ => false end.

Lemma clash_app : forall a b x y, clash a b = true -> (a ++ x)%list <> (b ++ y)%list.
Proof.
  induction a as [|c a IH]; intros [|d b] x y H E; try discriminate. cbn in H, E. injection E as -> E. rewrite Ascii.eqb_refl in H. apply (IH b x y H E).
Qed.

Lemma suffix_clash : forall s t p q : string, clash (rev (list_ascii_of_string p)) (rev (list_ascii_of_string q)) = true -> s ++ p <> t ++ q.
Proof.
  intros s t p q C E. apply (f_equal list_ascii_of_string) in E. rewrite !chars_app in E. apply (f_equal (@rev ascii)) in E. rewrite !rev_app_distr in E. exact (clash_app _ _ _ _ C E).
Qed.

Lemma remove_plain : forall d, plain d -> plain (remove_time_attributues d).
Proof.
  intros d (D & P). unfold remove_time_attributues.
  assert (X : forall d k, plain d -> plain (pop d k)).
  { intros d0 k (D0 & P0). split; [apply pop_dict; exact D0|]. intros k' v I. apply (P0 k' v). destruct (string_dec k' k) as [->|N].
    - exfalso. exact (pop_same d0 k v D0 I).
    - exact (proj1 (pop_other d0 k k' v D0 N) I). }
  assert (Y : plain d) by (split; assumption).
  cbv zeta. destruct (get d "weekday"); [assert (Z1 := X d "weekday" Y)|assert (Z1 := Y)]; (destruct (get _ "quarter"); [apply X; exact Z1|exact Z1]).
Qed.

Lemma path_main : forall r r', plain_request r -> plain_request r' -> path r = path r' -> same_request r r'.
Proof.
  intros r r' P P' E. destruct r, r'; cbn [path] in E; cbn [plain_request same_request] in *; try exact I; try discriminate E;
  try (apply prefix_cancel in E; apply string_inj; [apply remove_plain; assumption|apply remove_plain; assumption|exact E]);
  apply prefix_cancel in E; try (apply suffix_cancel in E; apply string_inj; assumption); exfalso; revert E; apply suffix_clash; reflexivity.
Qed.

Lemma same_path : forall r r', plain_request r -> plain_request r' -> same_request r r' -> path r = path r'.
Proof.
  intros r r' P P' S. destruct r, r'; cbn [path plain_request same_request] in *; try contradiction; try reflexivity;
  (rewrite (same_string _ _ (proj1 (remove_plain _ P)) (proj1 (remove_plain _ P')) S) || rewrite (same_string _ _ (proj1 P) (proj1 P') S)); reflexivity.
Qed.

Lemma same_target : forall r r', same_request r r' -> target r = target r'.
Proof. intros r r' S. destruct r, r'; cbn in *; try contradiction; reflexivity. Qed.

(** ** Array files *)

Section Arrays.
Variable A : Type.
Notation disk_np := (list (string * np_file A)).

Lemma dget_put : forall (d : disk_np) k v x, dget String.eqb (dset String.eqb d k v) x = if String.eqb k x then Some v else dget String.eqb d x.
Proof.
  intros d k v x. destruct (String.eqb k x) eqn:E; [apply String.eqb_eq in E; subst; apply dget_dset_same; apply String.eqb_eq|]. apply dget_dset_other; [apply String.eqb_eq|]. intro H. subst. rewrite String.eqb_refl in E. discriminate.
Qed.

Lemma save_npz_get : forall (d : disk_np) p l x, dget String.eqb (save_npz A d p l) x = if String.eqb (p ++ ".npz") x then Some (Npz A l) else dget String.eqb d x.
Proof. intros. apply dget_put. Qed.

Lemma save_npy_get : forall (d : disk_np) p l x, dget String.eqb (save_npy A d p l) x = if String.eqb (p ++ ".npy") x then Some (Npy A l) else dget String.eqb d x.
Proof. intros. apply dget_put. Qed.

Lemma eqb_app_same : forall (p q e : string), String.eqb (p ++ e) (q ++ e) = String.eqb p q.
Proof.
  intros p q e. destruct (String.eqb p q) eqn:E; [apply String.eqb_eq in E; subst; apply String.eqb_refl|]. apply String.eqb_neq. apply String.eqb_neq in E. intro H. apply E. apply suffix_cancel in H. exact H.
Qed.

Lemma eqb_npz_npy : forall p q, String.eqb (p ++ ".npz") (q ++ ".npy") = false.
Proof. intros p q. apply String.eqb_neq. apply suffix_clash. reflexivity. Qed.
Lemma eqb_npy_npz : forall p q, String.eqb (p ++ ".npy") (q ++ ".npz") = false.
Proof. intros p q. apply String.eqb_neq. apply suffix_clash. reflexivity. Qed.

(** A call never removes or changes a npz file, except for sparse loads of the
    same name. *)
Lemma call_keeps_npz : forall (d : disk_np) c p f, dget String.eqb d (p ++ ".npz") = Some f -> (forall parse, c <> CallSparse p parse) -> dget String.eqb (after_call d c) (p ++ ".npz") = Some f.
Proof.
  intros d c p f G N. assert (X : forall q l, dget String.eqb d (q ++ ".npz") = None -> dget String.eqb (save_npz A d q l) (p ++ ".npz") = Some f).
  { intros q l H. rewrite save_npz_get, eqb_app_same. destruct (String.eqb q p) eqn:E; [apply String.eqb_eq in E; congruence|exact G]. }
  destruct c as [q parse|q parse|q parse|q parse]; cbn [after_call].
  - unfold load_tpm, read_npz. destruct (dget String.eqb d (q ++ ".npz")) as [[l|a]|] eqn:E; try exact G. destruct parse as [[[t l] pdf]|e]; [|exact G]. apply X, E.
  - unfold load_tpm_with_duration, read_npz. destruct (dget String.eqb d ((q ++ "_with_duration") ++ ".npz")) as [[l|a]|] eqn:E; try exact G. destruct parse as [[[[[? ?] ?] ?] ?]|e]; [|exact G]. apply X, E.
  - unfold load_sparse_tpm. destruct (bind (read_sparse A d q) _) as [[[[[? ?] ?] ?] [[? ?] ?]]|[]]; try exact G. destruct parse as [s|e]; [|exact G]. cbn [fst].
    rewrite save_npz_get, eqb_app_same. destruct (String.eqb q p) eqn:E; [apply String.eqb_eq in E; subst; destruct (N (Ok s) eq_refl)|]. rewrite !save_npy_get, !eqb_npy_npz. exact G.
  - unfold load_npz_dict, read_npz. destruct (dget String.eqb d (q ++ ".npz")) as [[l|a]|] eqn:E; try exact G. destruct parse as [l|e]; [|exact G]. apply X, E.
Qed.

Lemma calls_keep_npz : forall cs (d : disk_np) p f, dget String.eqb d (p ++ ".npz") = Some f -> (forall parse, ~ In (CallSparse p parse) cs) -> dget String.eqb (after_calls d cs) (p ++ ".npz") = Some f.
Proof.
  induction cs as [|c cs IH]; intros d p f G N; [exact G|]. unfold after_calls. cbn [fold_left]. apply IH; [|intros parse I; apply (N parse); right; exact I].
  apply call_keeps_npz; [exact G|]. intros parse ->. apply (N parse). left. reflexivity.
Qed.

Lemma read_npz_keeps : forall cs (d : disk_np) p l, read_npz A d p = Ok l -> (forall parse, ~ In (CallSparse p parse) cs) -> read_npz A (after_calls d cs) p = Ok l.
Proof.
  intros cs d p l E N. unfold read_npz in *. destruct (dget String.eqb d (p ++ ".npz")) as [f|] eqn:G; [|discriminate]. rewrite (calls_keep_npz cs d p f G N). exact E.
Qed.

Lemma tpm_main : forall p parse (d : disk_np) d1 x, load_tpm A p parse d = (d1, Ok x) ->
  (d1 = d \/ parse = Ok x) /\ forall cs parse', (forall s, ~ In (CallSparse p s) cs) -> load_tpm A p parse' (after_calls d1 cs) = (after_calls d1 cs, Ok x).
Proof.
  intros p parse d d1 x E.
  assert (R : exists l, read_npz A d1 p = Ok l /\ bind (array A l "tpm") (fun tpm => bind (array A l "labels") (fun labels => bind (array A l "initial_pdf") (fun pdf => Ok (tpm, labels, pdf)))) = Ok x /\ (d1 = d \/ parse = Ok x)).
  { unfold load_tpm in E. destruct (read_npz A d p) as [l|e] eqn:R.
    - injection E as <- E. exists l. split; [exact R|]. split; [exact E|left; reflexivity].
    - destruct e; try discriminate. destruct parse as [[[t l] pdf]|]; [|discriminate]. injection E as <- <-. eexists. split; [unfold read_npz; rewrite save_npz_get, String.eqb_refl; reflexivity|]. split; [reflexivity|right; reflexivity]. }
  destruct R as (l & R & V & D). split; [exact D|]. intros cs parse' N. unfold load_tpm. rewrite (read_npz_keeps cs d1 p l R N), V. reflexivity.
Qed.

Lemma duration_main : forall p parse (d : disk_np) d1 x, load_tpm_with_duration A p parse d = (d1, Ok x) ->
  (d1 = d \/ parse = Ok x) /\ forall cs parse', (forall s, ~ In (CallSparse (p ++ "_with_duration") s) cs) -> load_tpm_with_duration A p parse' (after_calls d1 cs) = (after_calls d1 cs, Ok x).
Proof.
  intros p parse d d1 x E. unfold load_tpm_with_duration in E |- *. cbv zeta in *. set (q := p ++ "_with_duration") in *.
  destruct (read_npz A d q) as [l|e] eqn:R.
  - injection E as <- E. split; [left; reflexivity|]. intros cs parse' N. rewrite (read_npz_keeps cs d q l R N), E. reflexivity.
  - destruct e; try discriminate. destruct parse as [[[[[t du] l] pdf] ini]|]; [|discriminate]. injection E as <- <-. split; [right; reflexivity|]. intros cs parse' N.
    erewrite read_npz_keeps; [|unfold read_npz; rewrite save_npz_get, String.eqb_refl; reflexivity|exact N]. reflexivity.
Qed.

Lemma dict_main : forall p parse (d : disk_np) d1 x, load_npz_dict A p parse d = (d1, Ok x) ->
  (d1 = d \/ parse = Ok x) /\ forall cs parse', (forall s, ~ In (CallSparse p s) cs) -> load_npz_dict A p parse' (after_calls d1 cs) = (after_calls d1 cs, Ok x).
Proof.
  intros p parse d d1 x E. unfold load_npz_dict in E |- *. destruct (read_npz A d p) as [l|e] eqn:R.
  - injection E as <- <-. split; [left; reflexivity|]. intros cs parse' N. rewrite (read_npz_keeps cs d p l R N). reflexivity.
  - destruct e; try discriminate. destruct parse as [l|]; [|discriminate]. injection E as <- <-. split; [right; reflexivity|]. intros cs parse' N.
    erewrite read_npz_keeps; [|unfold read_npz; rewrite save_npz_get, String.eqb_refl; reflexivity|exact N]. reflexivity.
Qed.

(** Files of a sparse load. *)
Definition holds_sparse (d : disk_np) (p : string) (s : sparse_parts A) : Prop :=
  (exists l, dget String.eqb d (p ++ ".npz") = Some (Npz A l) /\ map snd l = [s_labels A s; s_activities A s; s_pdf A s]) /\
  dget String.eqb d (p ++ ".npy") = None /\
  dget String.eqb d ((p ++ "_tpm_times") ++ ".npy") = Some (Npy A (s_times A s)) /\ dget String.eqb d ((p ++ "_tpm_inds_from") ++ ".npy") = Some (Npy A (s_from A s)) /\
  dget String.eqb d ((p ++ "_tpm_inds_to") ++ ".npy") = Some (Npy A (s_to A s)) /\ dget String.eqb d ((p ++ "_tpm_values") ++ ".npy") = Some (Npy A (s_values A s)).

Lemma holds_reads : forall d p s, holds_sparse d p s <-> bind (read_sparse A d p) (fun q => bind (read_three A d p) (fun r => Ok (q, r))) =
  Ok ((s_times A s, s_from A s, s_to A s, s_values A s), (s_labels A s, s_activities A s, s_pdf A s)).
Proof.
  intros d p s. unfold holds_sparse, read_sparse, read_three, read_npy, read_npz. split.
  - intros ((l & E & M) & N & -> & -> & -> & ->). cbn [bind]. rewrite N, E. cbn [bind]. rewrite M. reflexivity.
  - intro H. destruct (dget String.eqb d ((p ++ "_tpm_times") ++ ".npy")) as [[|t]|]; try discriminate. destruct (dget String.eqb d ((p ++ "_tpm_inds_from") ++ ".npy")) as [[|f]|]; try discriminate.
    destruct (dget String.eqb d ((p ++ "_tpm_inds_to") ++ ".npy")) as [[|i]|]; try discriminate. destruct (dget String.eqb d ((p ++ "_tpm_values") ++ ".npy")) as [[|v]|]; try discriminate. cbn [bind] in H.
    destruct (dget String.eqb d (p ++ ".npy")) as [[|b]|]; try discriminate. destruct (dget String.eqb d (p ++ ".npz")) as [[l|]|]; try discriminate. cbn [bind] in H.
    destruct (map snd l) as [|x [|y [|z [|]]]] eqn:M; try discriminate. cbn [bind] in H. injection H as -> -> -> -> -> -> ->. split; [exists l; split; [reflexivity|exact M]|]. repeat split; reflexivity.
Qed.

(** Names that a sparse load of [q] writes as arrays. *)
Definition sparse_names (q : string) : list string := [q ++ "_tpm_times"; q ++ "_tpm_inds_from"; q ++ "_tpm_inds_to"; q ++ "_tpm_values"].

Lemma call_keeps_sparse : forall d c p s, holds_sparse d p s -> (forall q parse, c = CallSparse q parse -> ~ In p (sparse_names q)) -> holds_sparse (after_call d c) p s.
Proof.
  intros d c p s H N.
  assert (X : forall q l, dget String.eqb d (q ++ ".npz") = None -> holds_sparse (save_npz A d q l) p s).
  { intros q l E. destruct H as ((l0 & G & M) & H). split; [|rewrite !save_npz_get, !eqb_npz_npy; exact H]. exists l0. split; [|exact M]. rewrite save_npz_get, eqb_app_same. destruct (String.eqb q p) eqn:Q; [apply String.eqb_eq in Q; congruence|exact G]. }
  destruct c as [q parse|q parse|q parse|q parse]; cbn [after_call].
  - unfold load_tpm, read_npz. destruct (dget String.eqb d (q ++ ".npz")) as [[l|a]|] eqn:E; try exact H. destruct parse as [[[t l] pdf]|e]; [|exact H]. apply X, E.
  - unfold load_tpm_with_duration, read_npz. destruct (dget String.eqb d ((q ++ "_with_duration") ++ ".npz")) as [[l|a]|] eqn:E; try exact H. destruct parse as [[[[[? ?] ?] ?] ?]|e]; [|exact H]. apply X, E.
  - unfold load_sparse_tpm. destruct (string_dec q p) as [->|Ne].
    + rewrite (proj1 (holds_reads d p s) H). exact H.
    + destruct (bind (read_sparse A d q) _) as [[[[[? ?] ?] ?] [[? ?] ?]]|[]]; try exact H. destruct parse as [s'|e]; [|exact H]. cbn [fst].
      specialize (N q (Ok s') eq_refl). cbn in N. apply String.eqb_neq in Ne.
      assert (C : forall a b, clash (rev (list_ascii_of_string a)) (rev (list_ascii_of_string b)) = true -> String.eqb (q ++ a) (p ++ b) = false) by (intros a b K; apply String.eqb_neq; apply suffix_clash; exact K).
      destruct H as ((l0 & G & M) & H1 & H2 & H3 & H4 & H5). unfold holds_sparse.
      rewrite !save_npz_get, !save_npy_get, !eqb_npz_npy, !eqb_npy_npz, !eqb_app_same, !Ne.
      rewrite !C by reflexivity. split; [exists l0; split; assumption|].
      assert (W : forall x, In x (sparse_names q) -> String.eqb x p = false) by (intros x I; apply String.eqb_neq; intros ->; apply N; exact I). cbn in W.
      rewrite !W by tauto. repeat split; assumption.
  - unfold load_npz_dict, read_npz. destruct (dget String.eqb d (q ++ ".npz")) as [[l|a]|] eqn:E; try exact H. destruct parse as [l|e]; [|exact H]. apply X, E.
Qed.

Lemma calls_keep_sparse : forall cs d p s, holds_sparse d p s -> (forall q parse, In (CallSparse q parse) cs -> ~ In p (sparse_names q)) -> holds_sparse (after_calls d cs) p s.
Proof.
  induction cs as [|c cs IH]; intros d p s H N; [exact H|]. unfold after_calls. cbn [fold_left]. apply IH; [|intros q parse I; apply (N q parse); right; exact I].
  apply call_keeps_sparse; [exact H|]. intros q parse ->. apply (N q parse). left. reflexivity.
Qed.

Lemma sparse_main : forall p parse (d : disk_np) d1 x, dget String.eqb d (p ++ ".npy") = None -> load_sparse_tpm A p parse d = (d1, Ok x) ->
  (d1 = d \/ parse = Ok x) /\ forall cs parse', (forall q s, In (CallSparse q s) cs -> ~ In p (sparse_names q)) -> load_sparse_tpm A p parse' (after_calls d1 cs) = (after_calls d1 cs, Ok x).
Proof.
  intros p parse d d1 x N E.
  assert (H : holds_sparse d1 p x /\ (d1 = d \/ parse = Ok x)).
  { unfold load_sparse_tpm in E. destruct (bind (read_sparse A d p) _) as [[[[[t f] i] v] [[l a] pdf]]|e] eqn:R.
    - injection E as <- <-. split; [apply holds_reads; exact R|left; reflexivity].
    - destruct e; try discriminate. destruct parse as [s|]; [|discriminate]. injection E as <- <-. split; [|right; reflexivity]. unfold holds_sparse.
      assert (C : forall a b, clash (rev (list_ascii_of_string a)) (rev (list_ascii_of_string b)) = true -> String.eqb (p ++ a) (p ++ b) = false) by (intros a b K; apply String.eqb_neq; apply suffix_clash; exact K).
      assert (C0 : forall a, a <> "" -> String.eqb (p ++ a) p = false).
      { intros a Na. apply String.eqb_neq. intro X. apply (f_equal String.length) in X. 
        assert (L : forall u v : string, String.length (u ++ v) = (String.length u + String.length v)%nat) by (induction u; intro; cbn; [reflexivity|f_equal; auto]). rewrite L in X. destruct a; [congruence|cbn in X; lia]. }
      rewrite !save_npz_get, !save_npy_get, !eqb_npz_npy, !eqb_npy_npz, !eqb_app_same, !String.eqb_refl.
      rewrite !C by reflexivity. rewrite !C0 by discriminate. split; [eexists; split; reflexivity|]. repeat split; try reflexivity. exact N. }
  destruct H as (H & D). split; [exact D|]. intros cs parse' Hc. unfold load_sparse_tpm. rewrite (proj1 (holds_reads _ _ _) (calls_keep_sparse cs d1 p x H Hc)). destruct x; reflexivity.
Qed.
End Arrays.

(** ** Profiles *)

Lemma split_clean : forall c s, ~ In c (list_ascii_of_string s) -> split_char c s = [s].
Proof.
  intros c. induction s as [|x s IH]; intro N; [reflexivity|]. cbn in N |- *. destruct (Ascii.eqb x c) eqn:E; [apply Ascii.eqb_eq in E; exfalso; apply N; left; exact E|]. rewrite IH; [reflexivity|tauto].
Qed.

Lemma split_two : forall c s t, ~ In c (list_ascii_of_string s) -> ~ In c (list_ascii_of_string t) -> split_char c (s ++ String c t) = [s; t].
Proof.
  intros c. induction s as [|x s IH]; intros t N M; cbn.
  - rewrite Ascii.eqb_refl, (split_clean c t M). reflexivity.
  - cbn in N. destruct (Ascii.eqb x c) eqn:E; [apply Ascii.eqb_eq in E; exfalso; apply N; left; exact E|]. rewrite IH; [reflexivity|tauto|exact M].
Qed.

Section Profiles.
Variable A : Type.

Definition flat (d : profiles_dict A) : list (string * A) := flat_map (fun e => map (fun nl => (fst e ++ "&" ++ fst nl, snd nl)) (snd e)) d.

Lemma fold_dset_map : forall (t : string) (ps : list (string * A)) out, fold_left (fun out nl => dset String.eqb out (t ++ "&" ++ fst nl) (snd nl)) ps out =
  fold_left (fun d kv => dset String.eqb d (fst kv) (snd kv)) (map (fun nl => (t ++ "&" ++ fst nl, snd nl)) ps) out.
Proof. intros t ps. induction ps as [|nl ps IH]; intro out; [reflexivity|]. cbn [fold_left map fst snd]. apply IH. Qed.

Lemma flatten_fold : forall d out, fold_left (fun out e => fold_left (fun out nl => dset String.eqb out (fst e ++ "&" ++ fst nl) (snd nl)) (snd e) out) d out =
  fold_left (fun d kv => dset String.eqb d (fst kv) (snd kv)) (flat d) out.
Proof. induction d as [|[t ps] d IH]; intro out; [reflexivity|]. unfold flat. cbn [fold_left flat_map fst snd]. rewrite fold_left_app, IH, fold_dset_map. reflexivity. Qed.

Lemma clean_tail : forall e (d : profiles_dict A), clean_profiles (e :: d) -> clean_profiles d.
Proof. intros e d (N & H). inversion N; subst. split; [assumption|]. intros t ps I. apply H. right. exact I. Qed.

Lemma flat_nodup : forall d : profiles_dict A, clean_profiles d -> NoDup (map fst (flat d)).
Proof.
  induction d as [|[t ps] d IH]; intro C; [constructor|]. unfold flat. cbn [flat_map]. rewrite map_app. specialize (IH (clean_tail _ _ C)).
  destruct C as (N & H). inversion N as [|? ? Nt N']; subst. destruct (H t ps (or_introl eq_refl)) as (_ & Ct & Np & Cn). cbn [fst snd].
  assert (K : forall x, In x (map fst (map (fun nl : string * A => (t ++ "&" ++ fst nl, snd nl)) ps)) -> exists n a, In (n, a) ps /\ x = t ++ "&" ++ n).
  { intros x I. rewrite map_map in I. apply in_map_iff in I. destruct I as ([n a] & <- & I). exists n, a. split; [exact I|reflexivity]. }
  assert (K2 : forall x, In x (map fst (flat d)) -> exists t' n, In t' (map fst d) /\ clean_name t' /\ clean_name n /\ x = t' ++ "&" ++ n).
  { intros x I. apply in_map_iff in I. destruct I as ([y a] & <- & I). unfold flat in I. apply in_flat_map in I. destruct I as ([t' ps'] & I1 & I2). apply in_map_iff in I2. destruct I2 as ([n b] & E & I2). injection E as <- <-.
    destruct (H t' ps' (or_intror I1)) as (_ & Ct' & _ & Cn'). exists t', n. split; [apply (in_map fst) in I1; exact I1|]. split; [exact Ct'|]. split; [apply (Cn' n b I2)|reflexivity]. }
  clear N H.
  assert (ND1 : NoDup (map fst (map (fun nl : string * A => (t ++ "&" ++ fst nl, snd nl)) ps))).
  { rewrite map_map. cbn [fst]. clear K Cn. induction ps as [|[n a] ps IHp]; [constructor|]. inversion Np as [|? ? Nn Np']; subst. cbn [map fst]. constructor; [|apply IHp; assumption].
    intro I. apply Nn. apply in_map_iff in I. destruct I as ([n' a'] & E & I). cbn [fst] in E. apply prefix_cancel in E. cbn in E. injection E as E. subst n'. apply (in_map fst) in I. exact I. }
  revert ND1 K. generalize (map fst (map (fun nl : string * A => (t ++ "&" ++ fst nl, snd nl)) ps)). intros l ND1 K.
  induction l as [|x l IHl]; [exact IH|]. cbn. inversion ND1; subst. constructor; [|apply IHl; [assumption|intros y I; apply K; right; exact I]].
  intro I. apply in_app_iff in I. destruct I as [I|I]; [contradiction|]. destruct (K x (or_introl eq_refl)) as (n & a & In1 & E1). destruct (K2 x I) as (t' & n' & It & Ct' & Cn' & E2).
  pose proof (f_equal (split_char "&") (eq_trans (eq_sym E1) E2)) as S. cbn [append] in S. rewrite !split_two in S; try assumption; [|apply (Cn n a In1)]. injection S as S1 _. subst t'. contradiction.
Qed.

Lemma dset_app_last : forall (B : Type) (d : list (string * B)) t x y, ~ In t (map fst d) -> dset String.eqb (d ++ [(t, x)]) t y = (d ++ [(t, y)])%list.
Proof.
  intros B d t x y. induction d as [|[k v] d IH]; intro N; cbn.
  - rewrite String.eqb_refl. reflexivity.
  - cbn in N. destruct (String.eqb t k) eqn:E; [apply String.eqb_eq in E; exfalso; apply N; left; congruence|]. rewrite IH; [reflexivity|tauto].
Qed.

Lemma dget_app_last : forall (B : Type) (d : list (string * B)) t x, ~ In t (map fst d) -> dget String.eqb (d ++ [(t, x)]) t = Some x.
Proof.
  intros B d t x. induction d as [|[k v] d IH]; intro N; cbn.
  - rewrite String.eqb_refl. reflexivity.
  - cbn in N. destruct (String.eqb t k) eqn:E; [apply String.eqb_eq in E; exfalso; apply N; left; congruence|]. apply IH. tauto.
Qed.

Lemma rebuild_block : forall t ps (d : profiles_dict A) pre rest, clean_name t -> (forall n a, In (n, a) ps -> clean_name n) -> NoDup (map fst (pre ++ ps)) -> ~ In t (map fst d) ->
  rebuild (map (fun nl : string * A => ((t ++ "&" ++ fst nl)%string, snd nl)) ps ++ rest)%list (d ++ [(t, pre)])%list = rebuild rest (d ++ [(t, pre ++ ps)])%list.
Proof.
  intros t ps. induction ps as [|[n a] ps IH]; intros d pre rest Ct Cn N Nt; [rewrite app_nil_r; reflexivity|].
  cbn [map List.app rebuild fst snd]. cbn [append]. rewrite split_two; [|exact Ct|apply (Cn n a); left; reflexivity]. rewrite dget_app_last by exact Nt. rewrite dset_app_last by exact Nt.
  rewrite dset_new; [|rewrite map_app in N; cbn in N; apply NoDup_remove_2 in N; intro I; apply N; apply in_or_app; left; exact I].
  rewrite IH; [rewrite <- app_assoc; reflexivity|exact Ct|intros; apply (Cn n0 a0); right; assumption|rewrite <- app_assoc; exact N|exact Nt].
Qed.

Lemma rebuild_flat : forall (d done : profiles_dict A), clean_profiles d -> NoDup (map fst (done ++ d)) -> rebuild (flat d) done = Ok (done ++ d)%list.
Proof.
  induction d as [|[t ps] d IH]; intros done C N; [rewrite app_nil_r; reflexivity|].
  pose proof (clean_tail _ _ C) as C'. destruct C as (_ & H). destruct (H t ps (or_introl eq_refl)) as (Ne & Ct & Np & Cn). destruct ps as [|[n a] ps]; [congruence|].
  assert (Nt : ~ In t (map fst done)) by (rewrite map_app in N; cbn in N; apply NoDup_remove_2 in N; intro I; apply N; apply in_or_app; left; exact I).
  unfold flat. cbn [flat_map map fst snd List.app rebuild]. cbn [append]. rewrite split_two; [|exact Ct|apply (Cn n a); left; reflexivity].
  replace (dget String.eqb done t) with (@None (list (string * A))) by (symmetry; clear -Nt; induction done as [|[k v] l IHl]; [reflexivity|]; cbn in *; destruct (String.eqb t k) eqn:E; [apply String.eqb_eq in E; subst; tauto|apply IHl; tauto]).
  cbn [dset]. rewrite (dset_new _ done t) by exact Nt. fold (flat d).
  change (fun nl : string * A => (t ++ String "&" (fst nl), snd nl)) with (fun nl : string * A => (t ++ "&" ++ fst nl, snd nl)).
  rewrite rebuild_block; [| exact Ct|intros; apply (Cn n0 a0); right; assumption|exact Np|exact Nt].
  cbn [List.app]. rewrite IH; [rewrite <- app_assoc; reflexivity|exact C'|rewrite <- app_assoc; exact N].
Qed.

Lemma profiles_main : forall d : profiles_dict A, clean_profiles d -> rebuild (flatten d) [] = Ok d.
Proof.
  intros d C. unfold flatten. rewrite flatten_fold, fold_dset; [|exact (flat_nodup d C)]. cbn [List.app]. rewrite rebuild_flat; [reflexivity|exact C|exact (proj1 C)].
Qed.
End Profiles.

(** ** Climate *)

Lemma slice_split : forall (A : Type) (rows : list (Z * A)) first step start, (0 < step)%Z -> regular rows first step ->
  exists k, filter (fun r => (start - step <? fst r)%Z) rows = skipn k rows /\ (k = 0%nat \/ exists r, nth_error rows (Nat.pred k) = Some r /\ (fst r <= start - step)%Z) /\ (forall i r, nth_error rows i = Some r -> (k <= i)%nat -> (start - step < fst r)%Z).
Proof.
  intros A rows first step start Hs. revert first. induction rows as [|[t a] rows IH]; intros first R.
  - exists 0%nat. split; [reflexivity|]. split; [left; reflexivity|]. intros [|i] r E; discriminate.
  - assert (R' : regular rows (first + step) step).
    { intros i t' a' E. rewrite (R (S i) t' a' E). lia. }
    pose proof (R 0%nat t a eq_refl) as E0. destruct (IH _ R') as (k & F & L & G). cbn [filter fst]. destruct (Z.ltb_spec (start - step) t) as [H|H].
    + exists 0%nat. cbn [skipn]. split; [|split; [left; reflexivity|]].
      * f_equal. rewrite F. destruct L as [->|(r & Er & Lr)]; [reflexivity|]. exfalso. destruct r as [t' a']. pose proof (R' _ _ _ Er). cbn in *. nia.
      * intros i [t' a'] E _. pose proof (R _ _ _ E). cbn. nia.
    + exists (S k). cbn [skipn]. split; [exact F|]. split.
      * right. cbn [Nat.pred]. destruct L as [->|(r & Er & Lr)]; [exists (t, a); split; [reflexivity|exact H]|]. destruct k as [|k]; [exists (t, a); split; [reflexivity|exact H]|]. exists r. split; [exact Er|exact Lr].
      * intros [|i] r E K; [lia|]. apply (G i r E). lia.
Qed.

Lemma slice_main : forall (A : Type) (rows : list (Z * A)) first step start lt la, (0 < step)%Z -> regular rows first step -> nth_error rows (length rows - 1) = Some (lt, la) ->
  (start > lt -> historical_slice rows start step = Err ValueError)%Z /\
  (start <= lt -> exists k t a, historical_slice rows start step = Ok (skipn k rows) /\ nth_error rows k = Some (t, a) /\ (first <= start -> t <= start < t + step) /\ (start < first -> k = 0%nat))%Z.
Proof.
  intros A rows first step start lt la Hs R L.
  assert (V : exists pre, rev rows = (lt, la) :: pre).
  { destruct (rev rows) as [|x pre] eqn:E; [apply (f_equal (@rev _)) in E; rewrite rev_involutive in E; subst; discriminate|]. apply (f_equal (@rev _)) in E. rewrite rev_involutive in E. cbn in E. subst rows.
    rewrite app_length in L. cbn in L. rewrite nth_error_app2 in L by lia. replace (length (rev pre) + 1 - 1 - length (rev pre))%nat with 0%nat in L by lia. cbn in L. injection L as ->. exists pre. reflexivity. }
  destruct V as (pre & V). unfold historical_slice. rewrite V. split.
  - intro H. destruct (Z.ltb_spec lt start); [reflexivity|lia].
  - intro H. destruct (Z.ltb_spec lt start); [lia|]. destruct (slice_split A rows first step start Hs R) as (k & F & P & G).
    assert (K : (k < length rows)%nat).
    { destruct P as [->|([t a] & E & B)]; [destruct rows; [discriminate|cbn; lia]|].
      destruct (Nat.lt_ge_cases k (length rows)) as [X|X]; [exact X|exfalso]. assert (Y : (Nat.pred k < length rows)%nat) by (apply nth_error_Some; congruence).
      replace (Nat.pred k) with (length rows - 1)%nat in E by lia. rewrite L in E. injection E as <- <-. cbn in B. lia. }
    destruct (nth_error rows k) as [[t a]|] eqn:E; [|apply nth_error_None in E; lia]. exists k, t, a. split; [rewrite F; reflexivity|]. split; [exact E|].
    pose proof (R _ _ _ E) as Et. pose proof (G k (t, a) E (le_n k)) as B. cbn in B. split.
    + intro Hf. split; [|lia]. destruct P as [->|([t' a'] & E' & B')]; [lia|]. pose proof (R _ _ _ E') as Et'. cbn in B'. destruct k; [cbn [Nat.pred] in *; lia|]. cbn [Nat.pred] in Et'. nia.
    + intro Hf. destruct P as [->|([t' a'] & E' & B')]; [reflexivity|]. pose proof (R _ _ _ E') as Et'. cbn in B'. nia.
Qed.
