(** * Proofs about dictionaries read from sheets. *)

From Coq Require Import String Ascii List ZArith QArith Bool Arith Lia Lqa.
From Verif Require Import Prelude PreludeFacts SpecBase SpecBaseFacts Appliance_Model Appliance_Spec OwnDict_Spec Crest_Spec Sheet_Model Sheet_Spec.
Import ListNotations.
Open Scope string_scope.

Lemma heading_eqb_eq : forall a b, heading_eqb a b = true <-> a = b.
Proof.
  intros [s|x|] [t|y|]; cbn; try (split; [discriminate|intro E; discriminate E]); try tauto.
  - rewrite String.eqb_eq. split; [intros ->; reflexivity|intro E; injection E; auto].
  - rewrite Z.eqb_eq. split; [intros ->; reflexivity|intro E; injection E; auto].
Qed.

Lemma delete_stripped : forall s, stripped s (delete_spaces s).
Proof.
  induction s as [|c s IH]; [constructor|]. cbn. destruct (Ascii.eqb_spec c " ") as [->|N]; [constructor; exact IH|constructor; assumption].
Qed.
Lemma stripped_fun : forall s t, stripped s t -> t = delete_spaces s.
Proof.
  induction 1 as [|s t _ IH|c s t N _ IH]; [reflexivity|exact IH|]. cbn. apply Ascii.eqb_neq in N. rewrite N, IH. reflexivity.
Qed.
Lemma stripped_no_space : forall s t, stripped s t -> no_space t.
Proof.
  induction 1 as [|s t _ IH|c s t N _ IH]; [|exact IH|].
  - intros [|c a] b; discriminate.
  - intros [|c' a] b E; [injection E; congruence|]. injection E as _ E. exact (IH a b E).
Qed.

Lemma clean_cell_spec : forall c c', clean_cell c = Ok c' <-> cell_stripped c c'.
Proof.
  intros c c'. split.
  - destruct c; cbn; intro H; try discriminate; injection H as <-; constructor. apply delete_stripped.
  - destruct 1 as [s t H| | |]; try reflexivity. cbn. rewrite (stripped_fun s t H). reflexivity.
Qed.
Lemma clean_heading_spec : forall h k, clean_heading h = Ok k <-> heading_stripped h k.
Proof.
  intros c c'. split.
  - destruct c; cbn; intro H; try discriminate; injection H as <-; constructor. apply delete_stripped.
  - destruct 1 as [s t H|]; try reflexivity. cbn. rewrite (stripped_fun s t H). reflexivity.
Qed.

Lemma prefix_iff : forall p s, String.prefix p s = true <-> exists t, s = p ++ t.
Proof.
  induction p as [|c p IH]; intros s; [split; [exists s; reflexivity|destruct s; reflexivity]|].
  destruct s as [|d s]; cbn; [split; [discriminate|intros (t & E); discriminate]|].
  destruct (ascii_dec c d) as [->|N].
  - rewrite IH. split; intros (t & E); exists t; [congruence|injection E; auto].
  - split; [discriminate|]. intros (t & E). injection E. congruence.
Qed.
Lemma unnamed_spec : forall h, unnamed h = false <-> is_named h.
Proof.
  intros [s|z|]; cbn [unnamed]; [|split; [intros _ t; discriminate|reflexivity]|split; [intros _ t; discriminate|reflexivity]].
  destruct (String.prefix "Unnamed:" s) eqn:E; (split; [|]); try discriminate; try reflexivity.
  - intro N. apply prefix_iff in E as (t & ->). exfalso. exact (N t eq_refl).
  - intros _ t Et. assert (Es : s = "Unnamed:" ++ t) by congruence. assert (X : String.prefix "Unnamed:" s = true) by (apply prefix_iff; exists t; exact Es). congruence.
Qed.

(** A dictionary built entry by entry holds the last entry of each key. *)
Section Last.
  Context {K V : Type} (eqb : K -> K -> bool) (eqb_eq : forall a b, eqb a b = true <-> a = b).
  Definition build (items : list (K * V)) (d : list (K * V)) : list (K * V) := fold_left (fun d kv => dset eqb d (fst kv) (snd kv)) items d.
  Lemma build_get : forall items d k, (~ In k (map fst items) /\ dget eqb (build items d) k = dget eqb d k) \/
    (exists a v b, items = List.app a ((k, v) :: b) /\ ~ In k (map fst b) /\ dget eqb (build items d) k = Some v).
  Proof.
    induction items as [|[k' v'] items IH]; intros d k; [left; split; [auto|reflexivity]|]. cbn [build fold_left fst snd].
    destruct (IH (dset eqb d k' v') k) as [[N E]|(a & v & b & E1 & N & E)].
    - destruct (eqb k k') eqn:Ek.
      + apply eqb_eq in Ek as <-. right. exists [], v', items. split; [reflexivity|]. split; [exact N|]. unfold build in E. rewrite E.
        apply (dget_dset_same _ _ _ eqb_eq).
      + assert (k <> k') by (intro X; apply eqb_eq in X; congruence). left. split; [intros [X|X]; [cbn in X; congruence|exact (N X)]|].
        unfold build in E. rewrite E. apply (dget_dset_other _ _ _ eqb_eq). assumption.
    - right. exists ((k', v') :: a), v, b. split; [rewrite E1; reflexivity|]. split; [exact N|exact E].
  Qed.
  Lemma build_some : forall items k v, dget eqb (build items []) k = Some v <->
    exists a b, items = List.app a ((k, v) :: b) /\ ~ In k (map fst b).
  Proof.
    intros items k v. destruct (build_get items [] k) as [[N E]|(a & v' & b & E1 & N & E)].
    - rewrite E. split; [discriminate|]. intros (a & b & E1 & _). exfalso. apply N. rewrite E1, map_app. apply in_or_app. right. left. reflexivity.
    - rewrite E. split; [intro X; injection X as <-; eauto|]. intros (a' & b' & E2 & N'). rewrite E1 in E2. clear E1 E.
      revert a' E2. induction a as [|x a IHa]; intros [|x' a'] E2; cbn in E2.
      + injection E2 as -> _. reflexivity.
      + injection E2 as _ E2. exfalso. apply N. rewrite E2, map_app. apply in_or_app. right. left. reflexivity.
      + injection E2 as E2 E3. exfalso. apply N'. rewrite <- E3, map_app. apply in_or_app. right. left. reflexivity.
      + injection E2 as _ E2. exact (IHa a' E2).
  Qed.
  Lemma dset_nodup : forall (d : list (K * V)) k v, NoDup (map fst d) -> NoDup (map fst (dset eqb d k v)).
  Proof.
    induction d as [|[k' v'] d IH]; intros k v H; [cbn; repeat constructor; auto|]. cbn in H |- *. inversion H as [|? ? H1 H2]; subst.
    destruct (eqb k k') eqn:E.
    - apply eqb_eq in E as <-. cbn. constructor; assumption.
    - cbn. constructor; [|apply IH; exact H2]. intro X. apply H1. clear - X E eqb_eq. induction d as [|[k2 v2] d IHd]; cbn in X.
      + destruct X as [X|[]]. subst k'. exfalso. assert (eqb k k = true) by (apply eqb_eq; reflexivity). congruence.
      + destruct (eqb k k2) eqn:E2; cbn in X |- *.
        * apply eqb_eq in E2 as <-. destruct X as [X|X]; [left; exact X|right; exact X].
        * destruct X as [X|X]; [left; exact X|right; apply IHd; exact X].
  Qed.
  Lemma build_nodup : forall items d, NoDup (map fst d) -> NoDup (map fst (build items d)).
  Proof. induction items as [|x items IH]; intros d H; [exact H|]. cbn. apply IH. apply dset_nodup. exact H. Qed.
End Last.

Lemma mapM_app : forall A B (f : A -> result B) l m out, mapM f (l ++ m) = Ok out ->
  exists x y, out = (x ++ y)%list /\ mapM f l = Ok x /\ mapM f m = Ok y.
Proof.
  induction l as [|a l IH]; intros m out H; [exists [], out; auto|]. cbn in H. destruct (f a) as [b|e] eqn:E; [|discriminate]. cbn in H.
  destruct (mapM f (l ++ m)) as [o|e] eqn:E2; [|discriminate]. cbn in H. injection H as <-. destruct (IH m o E2) as (x & y & -> & E3 & E4).
  exists (b :: x), y. split; [reflexivity|]. split; [|exact E4]. cbn. rewrite E, E3. reflexivity.
Qed.
Lemma mapM_forall2 : forall A B (f : A -> result B) l out, mapM f l = Ok out <-> Forall2 (fun x y => f x = Ok y) l out.
Proof.
  intros A B f l. induction l as [|x l IH]; intros out; cbn.
  - split; [intro H; injection H as <-; constructor|intro H; inversion H; reflexivity].
  - destruct (f x) as [y|e] eqn:E; cbn.
    + destruct (mapM f l) as [ys|e] eqn:E2; cbn.
      * split; [intro H; injection H as <-; constructor; [exact E|apply IH; reflexivity]|].
        intro H. inversion H as [|? ? ? ? H1 H2]; subst. apply IH in H2. congruence.
      * split; [discriminate|]. intro H. inversion H as [|? ? ? ? H1 H2]; subst. apply IH in H2. discriminate.
    + split; [discriminate|]. intro H. inversion H; subst. congruence.
Qed.
Lemma mapM_app_inv : forall A B (f : A -> result B) out1 out2 l, mapM f l = Ok (out1 ++ out2)%list ->
  exists x y, l = (x ++ y)%list /\ mapM f x = Ok out1 /\ mapM f y = Ok out2.
Proof.
  intros A B f out1 out2 l H. apply mapM_forall2 in H. apply Forall2_app_inv_r in H as (x & y & H1 & H2 & E).
  exists x, y. rewrite !mapM_forall2. auto.
Qed.
Lemma mapM_same_err : forall A B (f : A -> result B) e l, (forall x e', In x l -> f x = Err e' -> e' = e) ->
  mapM f l = Err e <-> exists x, In x l /\ f x = Err e.
Proof.
  intros A B f e. induction l as [|x l IH]; intros H; cbn; [split; [discriminate|intros (y & [] & _)]|].
  destruct (f x) as [y|e'] eqn:E; cbn.
  - assert (H' : forall z e', In z l -> f z = Err e' -> e' = e) by (intros z e' I; apply H; right; exact I).
    specialize (IH H'). destruct (mapM f l) as [ys|e'] eqn:E2; cbn.
    + split; [discriminate|]. intros (z & [<-|I] & Ez); [congruence|]. exfalso. enough (Ok ys = Err e) by discriminate. apply IH. eauto.
    + split; [intro X; injection X as ->; destruct (proj1 IH eq_refl) as (z & I & Ez); eauto|].
      intros (z & [<-|I] & Ez); [congruence|]. apply IH. eauto.
  - pose proof (H x e' (or_introl eq_refl) E). subst e'. split; [eauto|reflexivity].
Qed.
Lemma mapM_fails : forall A B (f : A -> result B) l e, mapM f l = Err e -> exists x, In x l /\ f x = Err e.
Proof.
  intros A B f. induction l as [|x l IH]; intros e H; [discriminate|]. cbn in H. destruct (f x) as [y|e'] eqn:E; cbn in H.
  - destruct (mapM f l) as [ys|e'] eqn:E2; [discriminate|]. cbn in H. injection H as ->. destruct (IH e eq_refl) as (z & I & Ez). exists z. split; [right|]; assumption.
  - injection H as ->. exists x. split; [left; reflexivity|exact E].
Qed.

Definition named (sh : sheet) : sheet := filter (fun kc => negb (unnamed (fst kc))) sh.

Lemma named_in : forall sh h l, In (h, l) (named sh) <-> In (h, l) sh /\ is_named h.
Proof.
  intros sh h l. unfold named. rewrite filter_In. cbn. rewrite negb_true_iff, unnamed_spec. tauto.
Qed.

Lemma filter_split : forall A (p : A -> bool) l a x b, filter p l = (a ++ x :: b)%list ->
  exists a' b', l = (a' ++ x :: b')%list /\ p x = true /\ filter p b' = b.
Proof.
  intros A p. induction l as [|y l IH]; intros a x b H; [destruct a; discriminate|]. cbn in H. destruct (p y) eqn:E.
  - destruct a as [|z a]; cbn in H.
    + injection H as -> H. exists [], l. auto.
    + injection H as -> H. destruct (IH a x b H) as (a' & b' & -> & E1 & E2). exists (z :: a'), b'. auto.
  - destruct (IH a x b H) as (a' & b' & -> & E1 & E2). exists (y :: a'), b'. auto.
Qed.

Lemma clean_column_spec : forall h l k e, clean_column (h, l) = Ok (k, e) <->
  heading_stripped h k /\ exists l', e = Cells l' /\ Forall2 cell_stripped l l'.
Proof.
  intros h l k e. unfold clean_column. cbn [fst snd]. rewrite <- clean_heading_spec. destruct (clean_heading h) as [k'|x]; cbn.
  - destruct (mapM clean_cell l) as [l'|x] eqn:E; cbn.
    + apply mapM_forall2 in E. assert (F : Forall2 cell_stripped l l').
      { clear - E. induction E as [|a b l l' H _ IH]; constructor; [apply clean_cell_spec; exact H|exact IH]. }
      split.
      * intro H. injection H as <- <-. split; [reflexivity|]. eauto.
      * intros (H & l2 & -> & F2). injection H as ->. f_equal. f_equal. f_equal. clear E. revert l2 F2.
        induction F as [|a b l l' H _ IH]; intros l2 F2; inversion F2 as [|? ? ? ? H1 H2]; subst; [reflexivity|]. f_equal; [|apply IH; exact H2].
        apply clean_cell_spec in H, H1. congruence.
    + split; [discriminate|]. intros (_ & l' & _ & F). exfalso.
      assert (Y : mapM clean_cell l = Ok l'). { apply mapM_forall2. clear - F. induction F as [|a b l l' H _ IH]; constructor; [apply clean_cell_spec; exact H|exact IH]. }
      congruence.
  - split; [discriminate|]. intros [H _]. discriminate.
Qed.

(** The last cleaned entry of a key comes from the last column of that name. *)
Lemma items_column : forall sh items k e, mapM clean_column (named sh) = Ok items ->
  (exists a b, items = (a ++ (k, e) :: b)%list /\ ~ In k (map fst b)) <->
  (exists l l', last_column sh k l /\ e = Cells l' /\ Forall2 cell_stripped l l').
Proof.
  intros sh items k e H. split.
  - intros (a & b & -> & N). apply mapM_app_inv in H as (x & y & Exy & _ & Hy).
    destruct y as [|[h l] y]; [discriminate|]. cbn [mapM] in Hy. destruct (clean_column (h, l)) as [[k' e']|] eqn:Ec; [|discriminate]. cbn in Hy.
    destruct (mapM clean_column y) as [b'|] eqn:Eb; [|discriminate]. cbn in Hy. injection Hy as -> -> ->.
    apply clean_column_spec in Ec as (S1 & l' & -> & F). exists l, l'. split; [|auto].
    unfold named in Exy. destruct (filter_split _ _ _ _ _ _ Exy) as (a' & b'' & Es & En & Ef). cbn in En. rewrite negb_true_iff in En.
    exists a', h, b''. split; [exact Es|]. split; [apply unnamed_spec; exact En|]. split; [exact S1|].
    intros h' l2 I Nm St. apply N. assert (I2 : In (h', l2) y) by (rewrite <- Ef; apply (named_in b''); split; assumption).
    apply in_at in I2 as [i Hi]. destruct (mapM_ok _ _ _ _ _ Eb) as [_ M]. destruct (M i _ Hi) as ([k2 e2] & Y1 & Y2).
    apply clean_column_spec in Y2 as [St2 _]. apply clean_heading_spec in St, St2. assert (k2 = k) by congruence. subst k2.
    apply in_map_iff. exists (k, e2). split; [reflexivity|]. apply nth_error_In in Y1. exact Y1.
  - intros (l & l' & (a & h & b & -> & Nm & St & La) & -> & F). unfold named in H. rewrite filter_app in H. cbn [filter fst] in H.
    rewrite (proj2 (unnamed_spec h) Nm) in H. cbn [negb] in H. apply mapM_app in H as (x & y & -> & Hx & Hy).
    cbn [mapM] in Hy. assert (Ec : clean_column (h, l) = Ok (k, Cells l')) by (apply clean_column_spec; eauto). rewrite Ec in Hy. cbn in Hy.
    destruct (mapM clean_column (filter _ b)) as [b'|] eqn:Eb; [|discriminate]. cbn in Hy. injection Hy as <-. exists x, b'. split; [reflexivity|].
    intro I. apply in_map_iff in I as ([k2 e2] & E2 & I). cbn in E2. subst k2. apply mapM_forall2 in Eb.
    apply in_at in I as [i Hi]. assert (X : exists hc, nth_error (named b) i = Some hc /\ clean_column hc = Ok (k, e2)).
    { unfold at_ in Hi. clear - Eb Hi. revert i Hi. fold (named b) in Eb. induction Eb as [|p q u v H _ IH]; intros [|i] Hi; try discriminate.
      - cbn in Hi. injection Hi as ->. exists p. auto.
      - apply IH. exact Hi. }
    destruct X as ([h2 l2] & X1 & X2). apply nth_error_In in X1. apply named_in in X1 as [X1 X3]. apply clean_column_spec in X2 as [X2 _].
    exact (La h2 l2 X1 X3 X2).
Qed.

Lemma set_flags_get : forall tf flags d d', set_flags tf flags d = Ok d' -> forall k,
  (dget heading_eqb d' k = dget heading_eqb d k /\ forall f l, In f flags -> k = HText f -> dget heading_eqb d k <> Some (Cells l)) \/
  (exists f l b, In f flags /\ k = HText f /\ dget heading_eqb d k = Some (Cells l) /\ mapM (truth tf) l = Ok b /\ dget heading_eqb d' k = Some (Flags b)).
Proof.
  intros tf. induction flags as [|f flags IH]; intros d d' H k; [left; injection H as ->; split; [reflexivity|intros f l []]|].
  cbn [set_flags] in H. destruct (dget heading_eqb d (HText f)) as [[l|l|z]|] eqn:E.
  - destruct (mapM (truth tf) l) as [b|e] eqn:Em; [|discriminate]. cbn in H. specialize (IH _ _ H k).
    destruct (heading_eqb k (HText f)) eqn:Ek.
    + apply heading_eqb_eq in Ek. subst k. rewrite (dget_dset_same _ _ _ heading_eqb_eq) in IH.
      right. exists f, l, b. split; [left; reflexivity|]. split; [reflexivity|]. split; [exact E|]. split; [exact Em|].
      destruct IH as [[IH _]|(f' & l' & b' & _ & _ & IH & _)]; [exact IH|discriminate].
    + assert (Nk : k <> HText f) by (intro X; apply heading_eqb_eq in X; congruence). rewrite (dget_dset_other _ _ _ heading_eqb_eq) in IH by exact Nk.
      destruct IH as [[IH1 IH2]|(f' & l' & b' & I1 & I2)].
      * left. split; [exact IH1|]. intros f' l' [<-|I] ->; [congruence|]. apply (IH2 f'); auto.
      * right. exists f', l', b'. split; [right; exact I1|exact I2].
  - cbn in H. destruct (IH _ _ H k) as [[IH1 IH2]|(f' & l' & b' & I1 & I2)].
    + left. split; [exact IH1|]. intros f' l' [<-|I] ->; [congruence|]. apply (IH2 f'); auto.
    + right. exists f', l', b'. split; [right; exact I1|exact I2].
  - cbn in H. destruct (IH _ _ H k) as [[IH1 IH2]|(f' & l' & b' & I1 & I2)].
    + left. split; [exact IH1|]. intros f' l' [<-|I] ->; [congruence|]. apply (IH2 f'); auto.
    + right. exists f', l', b'. split; [right; exact I1|exact I2].
  - cbn in H. destruct (IH _ _ H k) as [[IH1 IH2]|(f' & l' & b' & I1 & I2)].
    + left. split; [exact IH1|]. intros f' l' [<-|I] ->; [congruence|]. apply (IH2 f'); auto.
    + right. exists f', l', b'. split; [right; exact I1|exact I2].
Qed.

Lemma set_flags_nodup : forall tf flags d d', set_flags tf flags d = Ok d' -> NoDup (map fst d) -> NoDup (map fst d').
Proof.
  intros tf. induction flags as [|f flags IH]; intros d d' H N; [injection H as <-; exact N|]. cbn [set_flags] in H.
  destruct (dget heading_eqb d (HText f)) as [[l|l|z]|]; try (cbn in H; exact (IH _ _ H N)).
  destruct (mapM (truth tf) l) as [b|e]; [|discriminate]. cbn in H. apply (IH _ _ H). apply (dset_nodup _ heading_eqb_eq). exact N.
Qed.

(** The parts of a successful run. *)
Lemma dict_inv : forall tf flags sh d, sheet_dict tf flags sh = Ok d -> exists items d1 n,
  mapM clean_column (named sh) = Ok items /\ set_flags tf flags (build heading_eqb items []) = Ok d1 /\
  d = dset heading_eqb d1 (HText "number") (Number (Z.of_nat n)) /\
  ((exists l, dget heading_eqb d1 (HText "name") = Some (Cells l) /\ length l = n) \/ (exists l, dget heading_eqb d1 (HText "name") = Some (Flags l) /\ length l = n)).
Proof.
  intros tf flags sh d H. unfold sheet_dict in H. fold (named sh) in H. destruct (mapM clean_column (named sh)) as [items|]; [|discriminate]. cbn [bind] in H.
  change (fold_left (fun d kv => dset heading_eqb d (fst kv) (snd kv)) items []) with (build heading_eqb items []) in H.
  destruct (set_flags tf flags (build heading_eqb items [])) as [d1|] eqn:E; [|discriminate]. cbn [bind] in H.
  destruct (dget heading_eqb d1 (HText "name")) as [[l|l|z]|] eqn:En; try discriminate; injection H as <-;
    exists items, d1, (length l); (split; [reflexivity|]; split; [exact E|]; split; [reflexivity|]); [left|right]; exists l; auto.
Qed.

Theorem dict_nodup : forall tf flags sh d, sheet_dict tf flags sh = Ok d -> NoDup (map fst d).
Proof.
  intros tf flags sh d H. destruct (dict_inv _ _ _ _ H) as (items & d1 & n & _ & H2 & -> & _).
  apply (dset_nodup _ heading_eqb_eq). apply (set_flags_nodup _ _ _ _ H2). apply (build_nodup _ heading_eqb_eq). constructor.
Qed.

Theorem dict_entries : forall tf flags sh d, sheet_dict tf flags sh = Ok d -> forall k e,
  k <> HText "number" -> (forall f, In f flags -> k <> HText f) ->
  (dget heading_eqb d k = Some e <-> exists l l', last_column sh k l /\ e = Cells l' /\ Forall2 cell_stripped l l').
Proof.
  intros tf flags sh d H k e Nk Nf. destruct (dict_inv _ _ _ _ H) as (items & d1 & n & H1 & H2 & -> & _).
  rewrite (dget_dset_other _ _ _ heading_eqb_eq) by exact Nk.
  destruct (set_flags_get _ _ _ _ H2 k) as [[E _]|(f & l & b & I & -> & _)]; [|exfalso; exact (Nf f I eq_refl)].
  rewrite E, (build_some heading_eqb heading_eqb_eq). apply items_column. exact H1.
Qed.

Theorem dict_flags : forall tf flags sh d, sheet_dict tf flags sh = Ok d -> forall f e, In f flags -> f <> "number" ->
  (dget heading_eqb d (HText f) = Some e <->
   exists l l' bs, last_column sh (HText f) l /\ Forall2 cell_stripped l l' /\ mapM (truth tf) l' = Ok bs /\ e = Flags bs).
Proof.
  intros tf flags sh d H f e If Nk. destruct (dict_inv _ _ _ _ H) as (items & d1 & n & H1 & H2 & -> & _).
  rewrite (dget_dset_other _ _ _ heading_eqb_eq) by congruence.
  pose proof (fun e => build_some heading_eqb heading_eqb_eq items (HText f) e) as B.
  destruct (set_flags_get _ _ _ _ H2 (HText f)) as [[E N]|(f' & l & b & I & Ef & E1 & E2 & E3)].
  - rewrite E. split.
    + intro G. pose proof G as G0. apply B in G. apply (items_column sh items _ _ H1) in G as (l & l' & _ & -> & _). exfalso. exact (N f l' If eq_refl G0).
    + intros (l & l' & bs & L & F & _ & _). exfalso. apply (N f l' If eq_refl). apply B. apply (items_column sh items _ _ H1). eauto.
  - rewrite E3. apply B in E1. apply (items_column sh items _ _ H1) in E1 as (l1 & l' & L & El & F). injection El as <-. split.
    + intro X. injection X as <-. exists l1, l, b. auto.
    + intros (l2 & l2' & bs & L2 & F2 & M2 & ->).
      assert (G : dget heading_eqb (build heading_eqb items []) (HText f) = Some (Cells l2')) by (apply B; apply (items_column sh items _ _ H1); eauto).
      assert (G2 : dget heading_eqb (build heading_eqb items []) (HText f) = Some (Cells l)) by (apply B; apply (items_column sh items _ _ H1); eauto).
      rewrite G in G2. injection G2 as ->. congruence.
Qed.

Lemma stripped_length : forall l l', Forall2 cell_stripped l l' -> length l = length l'.
Proof. induction 1; cbn; congruence. Qed.

Lemma last_in : forall sh k l, last_column sh k l -> exists h, In (h, l) sh.
Proof. intros sh k l (a & h & b & -> & _). exists h. apply in_or_app. right. left. reflexivity. Qed.

Theorem dict_number : forall tf flags sh d n, ~ In "name" flags -> rows sh n -> sheet_dict tf flags sh = Ok d ->
  dget heading_eqb d (HText "number") = Some (Number (Z.of_nat n)).
Proof.
  intros tf flags sh d n Nn R H. destruct (dict_inv _ _ _ _ H) as (items & d1 & m & H1 & H2 & -> & Hn).
  rewrite (dget_dset_same _ _ _ heading_eqb_eq). f_equal. f_equal. f_equal.
  destruct (set_flags_get _ _ _ _ H2 (HText "name")) as [[E _]|(f & l & b & I & Ef & _)]; [|exfalso; injection Ef as <-; exact (Nn I)].
  pose proof (fun e => build_some heading_eqb heading_eqb_eq items (HText "name") e) as B. rewrite E in Hn.
  destruct Hn as [(l & G & <-)|(l & G & <-)]; apply B in G; apply (items_column sh items _ _ H1) in G as (l1 & l' & L & El & F); [|discriminate].
  injection El as ->. rewrite <- (stripped_length _ _ F). destruct (last_in _ _ _ L) as (h & I). exact (R h l1 I).
Qed.

Lemma stripped_ex : forall c, c <> COther -> exists c', cell_stripped c c'.
Proof. intros [s|q|b| |] N; [exists (CText (delete_spaces s)); constructor; apply delete_stripped|eexists; constructor..|congruence]. Qed.

Lemma clean_column_err : forall h l e, clean_column (h, l) = Err e -> e = NotImplementedError /\ (h = HOther \/ In COther l).
Proof.
  intros h l e H. unfold clean_column in H. cbn [fst snd] in H. destruct h as [s|z|]; cbn in H.
  - destruct (mapM clean_cell l) as [l'|e'] eqn:E; [discriminate|]. cbn in H. injection H as ->. apply mapM_fails in E as (x & I & Ex).
    destruct x; try discriminate. injection Ex as <-. auto.
  - destruct (mapM clean_cell l) as [l'|e'] eqn:E; [discriminate|]. cbn in H. injection H as ->. apply mapM_fails in E as (x & I & Ex).
    destruct x; try discriminate. injection Ex as <-. auto.
  - injection H as <-. auto.
Qed.
Lemma clean_column_bad : forall h l, h = HOther \/ In COther l -> clean_column (h, l) = Err NotImplementedError.
Proof.
  intros h l H. destruct (clean_column (h, l)) as [[k e]|e] eqn:E; [|destruct (clean_column_err _ _ _ E) as [-> _]; reflexivity].
  exfalso. apply clean_column_spec in E as (S1 & l' & -> & F). destruct H as [->|I]; [inversion S1|].
  clear - F I. induction F as [|a b l l' Hab _ IH]; [destruct I|]. destruct I as [->|I]; [inversion Hab|auto].
Qed.

Lemma columns_ok : forall sh, plain sh <-> exists items, mapM clean_column (named sh) = Ok items.
Proof.
  intros sh. split.
  - intros P. apply mapM_total. intros [h l] I. apply named_in in I as [I Nm]. destruct (P h l I Nm) as [P1 P2].
    destruct (clean_column (h, l)) as [x|e] eqn:E; [eauto|]. apply clean_column_err in E as [_ [->|X]]; [congruence|contradiction].
  - intros (items & H) h l I Nm. apply mapM_ok in H as [_ M]. assert (I2 : In (h, l) (named sh)) by (apply named_in; auto).
    apply in_at in I2 as [i Hi]. destruct (M i _ Hi) as (y & _ & Y). split; [intros ->|intro X]; rewrite clean_column_bad in Y by auto; discriminate.
Qed.
Lemma columns_bad : forall sh e, mapM clean_column (named sh) = Err e -> e = NotImplementedError.
Proof. intros sh e H. apply mapM_fails in H as ([h l] & _ & E). apply clean_column_err in E as [-> _]. reflexivity. Qed.

(** Flags of columns without texts can always be converted. *)
Lemma truth_flag : forall tf l l', no_text l -> Forall2 cell_stripped l l' -> exists bs, mapM (truth tf) l' = Ok bs /\ Forall2 flag_of l bs.
Proof.
  intros tf l l' N F. induction F as [|a b l l' H F IH]; [exists []; split; [reflexivity|constructor]|].
  destruct IH as (bs & M & G); [intros s I; exact (N s (or_intror I))|]. cbn [mapM].
  destruct H as [s t S1|q|x|]; [exfalso; exact (N s (or_introl eq_refl))|..]; cbn [truth bind]; rewrite M; cbn [bind]; (eexists; split; [reflexivity|]);
    constructor; try exact G; try constructor.
  destruct (Qeq_bool q 0) eqn:E; cbn; constructor; [apply Qeq_bool_iff in E; exact E|].
  intro X. apply Qeq_bool_iff in X. congruence.
Qed.
Lemma flag_fun : forall c x y, flag_of c x -> flag_of c y -> x = y.
Proof. intros c x y H G. destruct H; inversion G; subst; try reflexivity; contradiction. Qed.

Lemma set_flags_total : forall tf flags d, (forall f l, In f flags -> dget heading_eqb d (HText f) = Some (Cells l) -> exists b, mapM (truth tf) l = Ok b) ->
  exists d', set_flags tf flags d = Ok d'.
Proof.
  intros tf. induction flags as [|f flags IH]; intros d H; [eexists; reflexivity|]. cbn [set_flags].
  destruct (dget heading_eqb d (HText f)) as [[l|l|z]|] eqn:E; try (apply IH; intros f' l' I; apply H; right; exact I).
  destruct (H f l (or_introl eq_refl) E) as (b & ->). cbn. apply IH. intros f' l' I G.
  destruct (String.eqb_spec f' f) as [->|Nf].
  - rewrite (dget_dset_same _ _ _ heading_eqb_eq) in G. discriminate.
  - rewrite (dget_dset_other _ _ _ heading_eqb_eq) in G by congruence. apply (H f' l'); [right; exact I|exact G].
Qed.

Theorem dict_total : forall tf flags sh, plain sh -> (forall f l, In f flags -> last_column sh (HText f) l -> no_text l) ->
  ((exists l, last_column sh (HText "name") l) -> exists d, sheet_dict tf flags sh = Ok d) /\
  ((forall l, ~ last_column sh (HText "name") l) -> sheet_dict tf flags sh = Err KeyError).
Proof.
  intros tf flags sh P T. apply columns_ok in P as (items & H1).
  pose proof (fun k e => build_some heading_eqb heading_eqb_eq items k e) as B.
  assert (S1 : exists d1, set_flags tf flags (build heading_eqb items []) = Ok d1).
  { apply set_flags_total. intros f l I G. apply B in G. apply (items_column sh items _ _ H1) in G as (l1 & l' & L & El & F). injection El as <-.
    destruct (truth_flag tf l1 l (T f l1 I L) F) as (bs & M & _). eauto. }
  destruct S1 as (d1 & H2).
  assert (C : sheet_dict tf flags sh = match dget heading_eqb d1 (HText "name") with
    | Some (Cells l) | Some (Flags l) => Ok (dset heading_eqb d1 (HText "number") (Number (Z.of_nat (length l))))
    | Some (Number _) => Err TypeError | None => Err KeyError end
    \/ exists l, dget heading_eqb d1 (HText "name") = Some (Flags l) /\ exists d, sheet_dict tf flags sh = Ok d).
  { unfold sheet_dict. fold (named sh). rewrite H1. cbn [bind].
    change (fold_left (fun d kv => dset heading_eqb d (fst kv) (snd kv)) items []) with (build heading_eqb items []). rewrite H2. cbn [bind].
    destruct (dget heading_eqb d1 (HText "name")) as [[l|l|z]|]; [left; reflexivity|right; eauto|left; reflexivity|left; reflexivity]. }
  destruct (set_flags_get _ _ _ _ H2 (HText "name")) as [[E _]|(f & l & b & I & Ef & G & _ & E)].
  - split.
    + intros (l & L). destruct C as [C|(x & _ & C)]; [|exact C]. rewrite C, E.
      assert (F : exists l', Forall2 cell_stripped l l').
      { destruct (last_in _ _ _ L) as (h0 & I0). destruct L as (a & h & b & Es & Nm & St & La).
        assert (Pl : plain sh) by (apply columns_ok; eauto). destruct (Pl h l) as [_ Pl2]; [rewrite Es; apply in_or_app; right; left; reflexivity|exact Nm|].
        clear - Pl2. induction l as [|c l IH]; [exists []; constructor|]. destruct IH as (l' & F); [intro X; apply Pl2; right; exact X|].
        destruct (stripped_ex c) as (c' & Hc); [intros ->; apply Pl2; left; reflexivity|]. exists (c' :: l'). constructor; assumption. }
      destruct F as (l' & F).
      assert (G : dget heading_eqb (build heading_eqb items []) (HText "name") = Some (Cells l')) by (apply B; apply (items_column sh items _ _ H1); eauto).
      rewrite G. eauto.
    + intros N. destruct C as [C|(x & X & C)].
      * rewrite C, E. destruct (dget heading_eqb (build heading_eqb items []) (HText "name")) as [e|] eqn:G; [|reflexivity].
        apply B in G. apply (items_column sh items _ _ H1) in G as (l1 & l' & L & _). exfalso. exact (N l1 L).
      * rewrite E in X. apply B in X. apply (items_column sh items _ _ H1) in X as (l1 & l' & L & _). exfalso. exact (N l1 L).
  - apply B in G. apply (items_column sh items _ _ H1) in G as (l1 & l' & L & _ & _). split; [|intro N; exfalso; exact (N l1 L)]. intros _.
    destruct C as [C|(x & _ & C)]; [|exact C]. rewrite C, E. eauto.
Qed.

Theorem dict_not_plain : forall tf flags sh, ~ plain sh -> sheet_dict tf flags sh = Err NotImplementedError.
Proof.
  intros tf flags sh N. unfold sheet_dict. fold (named sh). destruct (mapM clean_column (named sh)) as [items|e] eqn:E.
  - exfalso. apply N. apply columns_ok. eauto.
  - rewrite (columns_bad _ _ E). reflexivity.
Qed.

(** ** Yearly targets *)

Lemma targets_reads : forall types targets t v, NoDup types -> length types = length targets -> In (t, v) (combine types targets) ->
  dget String.eqb (yearly_targets types targets) t = Some v.
Proof.
  intros types targets t v N L I. unfold yearly_targets. change (fold_left _ (combine types targets) []) with (build String.eqb (combine types targets) []).
  apply (build_some String.eqb String.eqb_eq). apply in_split in I as (a & b & E). exists a, b. split; [exact E|].
  assert (M : map fst (combine types targets) = types).
  { clear - L. revert targets L. induction types as [|x l IH]; intros [|y m] H; try discriminate; [reflexivity|]. cbn. f_equal. apply IH. injection H; auto. }
  rewrite E, map_app in M. cbn in M. rewrite <- M in N. apply NoDup_remove_2 in N. intro X. apply N. apply in_or_app. right. exact X.
Qed.

Lemma closest_self : forall name keys, name <> "" -> In name keys -> find_closest_type name keys = Some name.
Proof.
  intros name keys H I. unfold find_closest_type. destruct name as [|c s]; [congruence|]. cbn [String.length closest_loop].
  assert (E : str_in (String c s) keys = true) by (unfold str_in; apply existsb_exists; exists (String c s); split; [exact I|apply String.eqb_refl]).
  rewrite E. reflexivity.
Qed.

Lemma read_first : forall d defaults l i counter, NoDup (map fst l) -> (forall t v, In (t, v) l -> t <> "" /\ dget String.eqb d t = Some v) ->
  (forall t, In t (map fst l) -> dget String.eqb counter t = None) ->
  from_dict_loop i (map fst l) defaults d counter = Ok (map snd l).
Proof.
  intros d defaults. induction l as [|[t v] l IH]; intros i counter N H C; [reflexivity|]. cbn [map fst snd from_dict_loop].
  destruct (H t v (or_introl eq_refl)) as [Ne G]. inversion N as [|? ? N1 N2]; subst.
  rewrite (closest_self t (map fst d) Ne) by (apply (dget_in _ _ _ String.eqb_eq) in G; apply in_map with (f := fst) in G; exact G).
  rewrite (C t (or_introl eq_refl)). cbn [Nat.eqb]. rewrite G. rewrite IH; [reflexivity|exact N2|intros t' v' I; apply H; right; exact I|].
  intros t' I. assert (t' <> t) by (intros ->; exact (N1 I)). rewrite (dget_dset_other _ _ _ String.eqb_eq) by assumption. apply C. right. exact I.
Qed.

Theorem targets_round_trip : forall types targets defaults, NoDup types -> ~ In "" types -> length types = length targets ->
  get_target_from_dict types defaults (yearly_targets types targets) = Ok targets.
Proof.
  intros types targets defaults N Ne L. unfold get_target_from_dict.
  assert (M : map fst (combine types targets) = types /\ map snd (combine types targets) = targets).
  { clear - L. revert targets L. induction types as [|x l IH]; intros [|y m] H; try discriminate; [split; reflexivity|]. cbn. injection H as H. destruct (IH m H). split; f_equal; assumption. }
  destruct M as [M1 M2]. pose proof (read_first (yearly_targets types targets) defaults (combine types targets) 0 []) as R. rewrite M1, M2 in R. apply R.
  - exact N.
  - intros t v I. split; [|apply targets_reads; assumption]. intros ->. apply Ne. rewrite <- M1. apply in_map_iff. exists ("", v). auto.
  - reflexivity.
Qed.

(** What appliances of repeated types get. *)
Lemma read_repeated : forall types d defaults, no_numbered types -> (forall k, In k (map fst d) <-> In k types) ->
  forall rest pre i counter, types = (pre ++ rest)%list ->
    (forall t, (In t pre -> exists c, (1 <= c)%nat /\ dget String.eqb counter t = Some c) /\ (~ In t pre -> dget String.eqb counter t = None)) ->
    exists out, from_dict_loop i rest defaults d counter = Ok out /\ length out = length rest /\
      forall j t v, at_ rest j t -> at_ out j v ->
        (In t (pre ++ firstn j rest)%list -> v = 0) /\ (~ In t (pre ++ firstn j rest)%list -> dget String.eqb d t = Some v).
Proof.
  intros types d defaults [Ne Nn] K. induction rest as [|t rest IH]; intros pre i counter E C.
  - exists []. split; [reflexivity|]. split; [reflexivity|]. intros [|j] t v H; discriminate.
  - assert (It : In t types) by (rewrite E; apply in_or_app; right; left; reflexivity).
    cbn [from_dict_loop]. rewrite (closest_self t (map fst d) (Ne t It)) by (apply K; exact It).
    set (n := match dget String.eqb counter t with Some c => S c | None => 1%nat end).
    assert (E2 : types = ((pre ++ [t]) ++ rest)%list) by (rewrite <- app_assoc; exact E).
    destruct (IH (pre ++ [t])%list (S i) (dset String.eqb counter t n) E2) as (out & H1 & H2 & H3).
    { intro s. destruct (String.eqb_spec s t) as [->|Ns].
      - rewrite (dget_dset_same _ _ _ String.eqb_eq). split.
        + intros _. exists n. split; [unfold n; destruct (dget String.eqb counter t); lia|reflexivity].
        + intro X. exfalso. apply X. apply in_or_app. right. left. reflexivity.
      - rewrite (dget_dset_other _ _ _ String.eqb_eq) by exact Ns. destruct (C s) as [C1 C2]. split.
        + intro I. apply in_app_or in I as [I|[I|[]]]; [exact (C1 I)|congruence].
        + intro I. apply C2. intro X. apply I. apply in_or_app. left. exact X. }
    rewrite H1. cbn [bind]. eexists. split; [reflexivity|]. split; [cbn; congruence|].
    intros [|j] s v Hs Hv; unfold at_ in Hs, Hv; cbn [nth_error] in Hs, Hv.
    + injection Hs as <-. injection Hv as <-. cbn [firstn]. rewrite app_nil_r. destruct (C t) as [C1 C2]. split; intro I.
      * destruct (C1 I) as (c & Hc & Ec). unfold n. rewrite Ec. destruct (Nat.eqb_spec (S c) 1) as [X|X]; [lia|].
        assert (G : dget String.eqb d (t ++ String "_" (str_of_nat (S c))) = None); [|rewrite G; reflexivity].
        apply (dget_notin _ _ _ String.eqb_eq). intro Y. apply K in Y. apply (Nn _ t (S c) Y It ltac:(lia)).
        unfold copy. destruct (Nat.eqb_spec (S c) 1); [lia|]. reflexivity.
      * unfold n. rewrite (C2 I). cbn [Nat.eqb]. destruct (dget String.eqb d t) as [q|] eqn:G; [reflexivity|].
        apply (dget_none_notin _ _ _ String.eqb_eq) in G. exfalso. apply G. apply K. exact It.
    + specialize (H3 j s v Hs Hv). cbn [firstn]. rewrite <- app_assoc in H3. exact H3.
Qed.

Lemma dset_keys_in : forall (d : list (string * Q)) k v x, In x (map fst (dset String.eqb d k v)) <-> x = k \/ In x (map fst d).
Proof.
  induction d as [|[k' v'] d IH]; intros k v x; cbn; [intuition|]. destruct (String.eqb_spec k k') as [->|N]; cbn; [intuition|]. rewrite IH. intuition.
Qed.
Lemma build_keys : forall items (d : list (string * Q)) x, In x (map fst (build String.eqb items d)) <-> In x (map fst items) \/ In x (map fst d).
Proof.
  induction items as [|[k v] items IH]; intros d x; cbn; [intuition|]. rewrite (IH (dset String.eqb d k v) x), dset_keys_in. intuition.
Qed.

Theorem targets_repeated : forall types targets defaults, no_numbered types -> length types = length targets ->
  exists out, get_target_from_dict types defaults (yearly_targets types targets) = Ok out /\ length out = length types /\
    forall i t v, at_ types i t -> at_ out i v ->
      (In t (firstn i types) -> v = 0) /\
      (~ In t (firstn i types) -> exists j, at_ types j t /\ at_ targets j v /\ forall j', (j < j')%nat -> ~ at_ types j' t).
Proof.
  intros types targets defaults N L.
  assert (M : map fst (combine types targets) = types).
  { clear - L. revert targets L. induction types as [|x l IH]; intros [|y m] H; try discriminate; [reflexivity|]. cbn. f_equal. apply IH. injection H; auto. }
  destruct (read_repeated types (yearly_targets types targets) defaults N) with (rest := types) (pre := @nil string) (i := 0%nat) (counter := @nil (string * nat)) as (out & H1 & H2 & H3).
  - intro k. unfold yearly_targets. change (fold_left _ (combine types targets) []) with (build String.eqb (combine types targets) []).
    rewrite build_keys, M. cbn. intuition.
  - reflexivity.
  - intro t. split; [intros []|reflexivity].
  - exists out. split; [exact H1|]. split; [exact H2|]. intros i t v Ht Hv. destruct (H3 i t v Ht Hv) as [A B]. split; [exact A|]. intro I. specialize (B I).
    unfold yearly_targets in B. change (fold_left _ (combine types targets) []) with (build String.eqb (combine types targets) []) in B.
    apply (build_some String.eqb String.eqb_eq) in B as (a & b & E & Nb). exists (length a).
    assert (P : nth_error (combine types targets) (length a) = Some (t, v)) by (rewrite E, nth_error_app2, Nat.sub_diag by lia; reflexivity).
    assert (Q1 : forall (types : list string) (targets : list Q) k x y, nth_error (combine types targets) k = Some (x, y) -> nth_error types k = Some x /\ nth_error targets k = Some y).
    { clear. intros T U. revert U. induction T as [|p T IH]; intros [|q U] [|k] x y H; try discriminate; [injection H as -> ->; auto|]. cbn [combine nth_error] in H |- *. exact (IH U k x y H). }
    apply Q1 in P as [P1 P2]. split; [exact P1|]. split; [exact P2|]. intros j' Hj Hj'. apply Nb.
    rewrite <- M, E, map_app in Hj'. unfold at_ in Hj'. rewrite nth_error_app2, map_length in Hj' by (rewrite map_length; lia).
    destruct (j' - length a)%nat as [|m] eqn:Em; [lia|]. cbn in Hj'. apply nth_error_In in Hj'. exact Hj'.
Qed.
