(** * Proofs about the dataset loaders: objects and JSON files. *)

From Coq Require Import String Ascii List ZArith QArith Bool Arith Lia.
From Verif Require Import Prelude PreludeFacts Subgroup_Model Subgroup_Spec Loader_Model Loader_Spec.
Import ListNotations.
Local Open Scope string_scope.

(** ** Induction on objects *)

Section Ind.
Variable P : obj -> Prop.
Hypothesis Hnone : P ONone.
Hypothesis Hpy : forall x, P (OPy x).
Hypothesis Hnp : forall x, P (ONp x).
Hypothesis Hlist : forall l, Forall P l -> P (OList l).
Hypothesis Harr : forall l, Forall P l -> P (OArr l).
Hypothesis Hdict : forall items, Forall (fun kv => P (fst kv) /\ P (snd kv)) items -> P (ODict items).
Hypothesis Hother : P OOther.

Fixpoint obj_induction (o : obj) : P o :=
  match o with
  | ONone => Hnone
  | OPy x => Hpy x
  | ONp x => Hnp x
  | OList l => Hlist l ((fix go l : Forall P l := match l with [] => Forall_nil _ | x :: t => Forall_cons _ (obj_induction x) (go t) end) l)
  | OArr l => Harr l ((fix go l : Forall P l := match l with [] => Forall_nil _ | x :: t => Forall_cons _ (obj_induction x) (go t) end) l)
  | ODict items => Hdict items ((fix go l : Forall (fun kv => P (fst kv) /\ P (snd kv)) l :=
      match l with [] => Forall_nil _ | (k, v) :: t => Forall_cons (k, v) (conj (obj_induction k) (obj_induction v)) (go t) end) items)
  | OOther => Hother
  end.
End Ind.

Lemma all_of_forall : forall A (P : A -> Prop) l, all_of P l <-> Forall P l.
Proof.
  intros A P l. induction l as [|x l IH]; cbn; split; intro H; [constructor|exact I| |].
  - destruct H as [X L]. constructor; [exact X|apply IH; exact L].
  - inversion H; subst. split; [assumption|apply IH; assumption].
Qed.

Lemma each_ok : forall A B (f : A -> result B) l l', Forall2 (fun x y => f x = Ok y) l l' -> each f l = Ok l'.
Proof. intros A B f l l' H. induction H as [|x y l l' E H IH]; [reflexivity|]. cbn. rewrite E. cbn. rewrite IH. reflexivity. Qed.

Lemma each_inv : forall A B (f : A -> result B) l l', each f l = Ok l' -> Forall2 (fun x y => f x = Ok y) l l'.
Proof.
  intros A B f l. induction l as [|x l IH]; intros l' H; cbn in H.
  - injection H as <-. constructor.
  - destruct (f x) as [y|] eqn:E; [|discriminate]. cbn in H. destruct (each f l) as [ys|]; [|discriminate]. cbn in H. injection H as <-. constructor; [exact E|apply IH; reflexivity].
Qed.

(** ** Dictionaries from distinct keys *)

Lemma dset_new : forall A (d : list (string * A)) k v, ~ In k (map fst d) -> dset String.eqb d k v = (d ++ [(k, v)])%list.
Proof.
  intros A d k v. induction d as [|[x a] d IH]; intro N; cbn; [reflexivity|].
  destruct (String.eqb k x) eqn:E; [apply String.eqb_eq in E; exfalso; apply N; left; symmetry; exact E|]. rewrite IH; [reflexivity|]. intro I. apply N. right. exact I.
Qed.

Lemma fold_dset : forall A (r d : list (string * A)), NoDup (map fst (d ++ r)) -> fold_left (fun d kv => dset String.eqb d (fst kv) (snd kv)) r d = (d ++ r)%list.
Proof.
  intros A r. induction r as [|[k v] r IH]; intros d N; cbn [fold_left fst snd]; [rewrite app_nil_r; reflexivity|].
  rewrite dset_new.
  - rewrite IH; rewrite <- app_assoc; [reflexivity|exact N].
  - rewrite map_app in N. cbn in N. apply NoDup_remove_2 in N. intro I. apply N. apply in_or_app. left. exact I.
Qed.

Lemma string_keys_cons : forall k v items keys, string_keys ((k, v) :: items) keys -> exists s keys', keys = s :: keys' /\ k = OPy (SStr s) /\ string_keys items keys'.
Proof. intros k v items [|s keys] H; [discriminate|]. unfold string_keys in H. cbn in H. injection H as H1 H2. exists s, keys. auto. Qed.

Lemma strings_rebuild : forall (r : list (string * obj)) keys, map fst r = keys -> map fst (map (fun kv : string * obj => (OPy (SStr (fst kv)), snd kv)) r) = map (fun s => OPy (SStr s)) keys.
Proof. intros r keys <-. rewrite !map_map. reflexivity. Qed.

Lemma make_strings : forall items keys, string_keys items keys -> forall (Q : obj -> obj -> Prop),
  Forall (fun kv => exists j, make_jsonable (snd kv) = Ok j /\ Q (snd kv) j) items ->
  exists items', make_jsonable (ODict items) = Ok (ODict items') /\ string_keys items' keys /\ Forall2 (fun a b => fst a = fst b /\ Q (snd a) (snd b)) items items'.
Proof.
  intros items keys K Q F. cbn [make_jsonable].
  assert (H : exists items', each (fun kv => match kv with (k, v) => pair_result (make_jsonable k) (make_jsonable v) end) items = Ok items' /\ string_keys items' keys /\
    Forall2 (fun a b => fst a = fst b /\ Q (snd a) (snd b)) items items').
  { revert keys K F. induction items as [|[k v] items IH]; intros keys K F.
    - exists []. destruct keys; [|discriminate]. repeat split. constructor.
    - destruct (string_keys_cons _ _ _ _ K) as (s & keys' & -> & -> & K'). inversion F as [|? ? (j & J & HQ) F']; subst.
      destruct (IH keys' K' F') as (items' & E & SK & F2). exists ((OPy (SStr s), j) :: items'). cbn [each make_jsonable]. cbn [snd] in J. rewrite J. cbn. rewrite E. cbn.
      split; [reflexivity|]. split; [unfold string_keys in *; cbn; rewrite SK; reflexivity|]. constructor; [split; [reflexivity|exact HQ]|exact F2]. }
  destruct H as (items' & E & SK & F2). exists items'. rewrite E. split; [reflexivity|]. split; assumption.
Qed.

Section J.
Variable ft : Q -> string.

Lemma trip_strings : forall items keys, string_keys items keys -> NoDup keys -> forall (Q : obj -> obj -> Prop),
  Forall (fun kv => exists j, json_trip ft (snd kv) = Ok j /\ Q (snd kv) j) items ->
  exists items', json_trip ft (ODict items) = Ok (ODict items') /\ string_keys items' keys /\ Forall2 (fun a b => fst a = fst b /\ Q (snd a) (snd b)) items items'.
Proof.
  intros items keys K N Q F. cbn [json_trip].
  assert (H : exists r, each (fun kv => match kv with (k, v) => pair_result (key_text ft k) (json_trip ft v) end) items = Ok r /\ map fst r = keys /\
    Forall2 (fun a b => fst a = OPy (SStr (fst b)) /\ Q (snd a) (snd b)) items r).
  { clear N. revert keys K F. induction items as [|[k v] items IH]; intros keys K F.
    - exists []. destruct keys; [|discriminate]. repeat split. constructor.
    - destruct (string_keys_cons _ _ _ _ K) as (s & keys' & -> & -> & K'). inversion F as [|? ? (j & J & HQ) F']; subst.
      destruct (IH keys' K' F') as (r & E & SK & F2). exists ((s, j) :: r). cbn [each key_text]. cbn [snd] in J. rewrite J. cbn. rewrite E. cbn.
      split; [reflexivity|]. split; [rewrite SK; reflexivity|]. constructor; [split; [reflexivity|exact HQ]|exact F2]. }
  destruct H as (r & E & SK & F2). rewrite E. cbn [bind].
  rewrite fold_dset; [|cbn; rewrite SK; exact N]. cbn [List.app].
  exists (map (fun kv => (OPy (SStr (fst kv)), snd kv)) r). split; [reflexivity|]. split; [apply strings_rebuild; exact SK|].
  clear K N E SK F. induction F2 as [|a b l l' H F2 IH]; cbn; [constructor|]. constructor; [exact H|exact IH].
Qed.

(** Plain data come back as they are. *)
Lemma forall_exists2 : forall A B (R : A -> B -> Prop) l, Forall (fun x => exists y, R x y) l -> exists l', Forall2 R l l'.
Proof. intros A B R l H. induction H as [|x l (y & E) H (l' & IH)]; [exists []; constructor|]. exists (y :: l'). constructor; assumption. Qed.

Lemma make_plain : forall o, plain_json o -> make_jsonable o = Ok o.
Proof.
  induction o using obj_induction; cbn [plain_json]; intro H'; try contradiction; try reflexivity.
  - cbn [make_jsonable]. rewrite (each_ok _ _ make_jsonable l l); [reflexivity|]. apply all_of_forall in H'. revert H H'. induction l as [|x l IH]; intros F G; [constructor|].
    inversion F; inversion G; subst. constructor; [auto|apply IH; assumption].
  - destruct H' as ((keys & K & N) & A). cbn [make_jsonable].
    rewrite (each_ok _ _ _ items items); [reflexivity|]. apply all_of_forall in A. clear N. revert keys K. induction items as [|[k v] items IH]; intros keys K; [constructor|].
    destruct (string_keys_cons _ _ _ _ K) as (s & keys' & -> & -> & K'). inversion H as [|? ? (_ & Hv) H2]; inversion A as [|? ? Av A2]; subst. constructor; [cbn [make_jsonable]; cbn [snd] in Hv; rewrite (Hv Av); reflexivity|].
    apply (IH H2 A2 keys' K').
Qed.

Lemma forall2_same : forall A (l l' : list A), Forall2 (fun a b => a = b) l l' -> l = l'.
Proof. intros A l l' H. induction H; congruence. Qed.

Lemma trip_plain : forall o, plain_json o -> json_trip ft o = Ok o.
Proof.
  induction o using obj_induction; cbn [plain_json]; intro H'; try contradiction; try reflexivity.
  - cbn [json_trip]. rewrite (each_ok _ _ (json_trip ft) l l); [reflexivity|]. apply all_of_forall in H'. revert H H'. induction l as [|x l IH]; intros F G; [constructor|].
    inversion F; inversion G; subst. constructor; [auto|apply IH; assumption].
  - destruct H' as ((keys & K & N) & A).
    destruct (trip_strings items keys K N (fun a b => a = b)) as (items' & E & SK & F2).
    + apply all_of_forall in A. clear K N. induction items as [|[k v] items IH]; [constructor|]. inversion H as [|? ? (_ & Hv) H2]; inversion A as [|? ? Av A2]; subst.
      constructor; [exists v; split; [apply Hv; exact Av|reflexivity]|apply IH; assumption].
    + rewrite E. f_equal. f_equal. clear E K SK N A H. induction F2 as [|[a1 a2] [b1 b2] l l' [H1 H2] F2 IH]; [reflexivity|]. cbn in H1, H2. subst. reflexivity.
Qed.

(** Cells and entries. *)
Definition jsoned (o j : obj) : Prop := exists m, make_jsonable o = Ok m /\ json_trip ft m = Ok j.

Lemma jsoned_list : forall l (R : obj -> obj -> Prop), Forall (fun o => exists j, jsoned o j /\ R o j) l ->
  exists l', jsoned (OList l) (OList l') /\ jsoned (OArr l) (OList l') /\ Forall2 R l l'.
Proof.
  intros l R H.
  assert (E : exists ms l', each make_jsonable l = Ok ms /\ each (json_trip ft) ms = Ok l' /\ Forall2 R l l').
  { induction H as [|o l (j & (m & M & T) & HR) H (ms & l' & E1 & E2 & F)]; [exists [], []; repeat split; constructor|].
    exists (m :: ms), (j :: l'). cbn. rewrite M, E1. cbn. rewrite T, E2. repeat split. constructor; assumption. }
  destruct E as (ms & l' & E1 & E2 & F). exists l'. split; [|split; [|exact F]]; exists (OList ms); cbn [make_jsonable json_trip]; rewrite E1; cbn [bind]; rewrite E2; split; reflexivity.
Qed.

Lemma cell_trip : forall o, cell o -> exists j, jsoned o j /\ np_element j = o.
Proof.
  induction o using obj_induction; cbn [cell]; intro H'; try contradiction.
  - exists (OPy x). split; [exists (OPy x); split; reflexivity|]. destruct x; try contradiction; reflexivity.
  - exists (OPy x). split; [exists (OPy x); split; reflexivity|]. destruct x; try contradiction; reflexivity.
  - apply all_of_forall in H'. destruct (jsoned_list l (fun o j => np_element j = o)) as (l' & _ & J & F).
    { clear - H H'. induction l as [|x l IH]; [constructor|]. inversion H; inversion H'; subst. constructor; [auto|apply IH; assumption]. }
    exists (OList l'). split; [exact J|]. cbn. f_equal. clear J H H'. induction F; cbn; [reflexivity|]. congruence.
Qed.

Lemma np_cell : forall o, cell o -> np_element o = o.
Proof. destruct o as [| [| | |]| [| | |]| | | |]; cbn; try contradiction; reflexivity. Qed.

Lemma entry_trip : forall o, entry o -> exists j, jsoned o j /\ np_element j = np_element o.
Proof.
  induction o using obj_induction; cbn [entry]; intro H'; try contradiction.
  - exists (OPy x). split; [exists (OPy x); split; reflexivity|]. reflexivity.
  - exists (OPy x). split; [exists (OPy x); split; reflexivity|]. destruct x; try contradiction; reflexivity.
  - apply all_of_forall in H'. destruct (jsoned_list l (fun o j => np_element j = np_element o)) as (l' & J & _ & F).
    { clear - H H'. induction l as [|x l IH]; [constructor|]. inversion H; inversion H'; subst. constructor; [auto|apply IH; assumption]. }
    exists (OList l'). split; [exact J|]. cbn. f_equal. clear J H H'. induction F; cbn; [reflexivity|]. congruence.
  - apply (cell_trip (OArr l)) in H'. destruct H' as (j & J & E). exists j. split; [exact J|]. exact E.
Qed.

Lemma list_arrays : forall l, lists_to_numpy_array (OList l) = Ok (OArr (map np_element l)).
Proof. reflexivity. Qed.

Lemma storable_trip : forall o, storable o -> exists j, jsoned o j /\ lists_to_numpy_array j = lists_to_numpy_array o /\ (forall items, o = ODict items -> exists items', j = ODict items').
Proof.
  induction o using obj_induction; cbn [storable]; intro H'; try contradiction.
  - exists (OPy x). split; [exists (OPy x); split; reflexivity|]. split; [reflexivity|discriminate].
  - destruct (entry_trip (OList l) H') as (j & J & E). destruct J as (m & M & T). cbn [make_jsonable] in M. destruct (each make_jsonable l) as [ms|] eqn:EM; [|discriminate]. cbn in M. injection M as <-.
    cbn [json_trip] in T. destruct (each (json_trip ft) ms) as [l'|] eqn:ET; [|discriminate]. cbn in T. injection T as <-.
    exists (OList l'). split; [exists (OList ms); cbn [make_jsonable json_trip]; rewrite EM; cbn [bind]; rewrite ET; split; reflexivity|]. split; [rewrite !list_arrays; cbn in E; congruence|discriminate].
  - destruct (cell_trip (OArr l) H') as (j & J & E). destruct J as (m & M & T). cbn [make_jsonable] in M. destruct (each make_jsonable l) as [ms|] eqn:EM; [|discriminate]. cbn in M. injection M as <-.
    cbn [json_trip] in T. destruct (each (json_trip ft) ms) as [l'|] eqn:ET; [|discriminate]. cbn in T. injection T as <-.
    exists (OList l'). split; [exists (OList ms); cbn [make_jsonable json_trip]; rewrite EM; cbn [bind]; rewrite ET; split; reflexivity|]. split; [rewrite list_arrays; cbn in E; cbn; congruence|discriminate].
  - destruct H' as ((keys & K & N) & A). apply all_of_forall in A.
    assert (X : Forall (fun kv => exists j, jsoned (snd kv) j /\ lists_to_numpy_array j = lists_to_numpy_array (snd kv)) items).
    { clear K N. induction items as [|[k v] items IH]; [constructor|]. inversion H as [|? ? (_ & Hv) H2]; inversion A as [|? ? Av A2]; subst.
      constructor; [destruct (Hv Av) as (j & J & E & _); exists j; split; assumption|apply IH; assumption]. }
    destruct (make_strings items keys K (fun a m => exists j, json_trip ft m = Ok j /\ lists_to_numpy_array j = lists_to_numpy_array a)) as (ms & M & SK & F).
    { clear - X. induction X as [|kv l (j & (m & J1 & J2) & E) X IH]; [constructor|]. constructor; [|exact IH]. exists m. split; [exact J1|]. exists j. split; assumption. }
    destruct (trip_strings ms keys SK N (fun m j => forall a, (forall j', json_trip ft m = Ok j' -> lists_to_numpy_array j' = lists_to_numpy_array a) -> lists_to_numpy_array j = lists_to_numpy_array a)) as (js & T & TK & G).
    { clear - F. induction F as [|a b l l' (_ & (j & J & _)) F IH]; [constructor|]. constructor; [|exact IH]. exists j. split; [exact J|]. intros a0 H0. apply H0. exact J. }
    exists (ODict js). split; [exists (ODict ms); split; assumption|]. split; [|intros; exists js; reflexivity].
    cbn [lists_to_numpy_array]. f_equal. clear - F G.
    revert js G. induction F as [|[k v] [k2 m] l l' (Ek & (j & J & Ej)) F IH]; intros js G; inversion G as [|? [k3 j3] ? js' (Ek' & Q) G']; subst; [reflexivity|].
    cbn [each]. cbn in Ek, Ek', Q, J, Ej. subst k2 k3. rewrite (Q v); [|intros j' J'; rewrite J in J'; injection J' as <-; exact Ej]. destruct (pair_result (lists_to_numpy_array k) (lists_to_numpy_array v)); [cbn [bind]|reflexivity]. rewrite (IH js' G'). reflexivity.
Qed.

(** What is returned. *)
Lemma entry_cell : forall o, entry o -> cell (np_element o) /\ holds o (np_element o).
Proof.
  induction o using obj_induction; cbn [entry]; intro H'; try contradiction.
  - destruct x; cbn; split; try exact I; constructor.
  - destruct x; try contradiction; cbn; split; try exact I; constructor.
  - cbn. split; [|constructor]; apply all_of_forall in H'.
    + apply all_of_forall. induction l as [|x l IH]; [constructor|]. inversion H; inversion H'; subst. cbn. constructor; [apply H2; assumption|apply IH; assumption].
    + induction l as [|x l IH]; [constructor|]. inversion H; inversion H'; subst. cbn. constructor; [apply H2; assumption|apply IH; assumption].
  - cbn. split; [exact H'|constructor].
Qed.

Lemma storable_arrays : forall o, storable o -> exists out, lists_to_numpy_array o = Ok out /\ arrays_of o out.
Proof.
  induction o using obj_induction; cbn [storable]; intro H'; try contradiction.
  - exists (OPy x). split; [reflexivity|constructor].
  - exists (OArr (map np_element l)). split; [reflexivity|]. apply all_of_forall in H'.
    assert (F : Forall2 holds l (map np_element l) /\ Forall cell (map np_element l)).
    { clear H. induction H' as [|x l E H' (I1 & I2)]; cbn; [split; constructor|]. destruct (entry_cell x E). split; constructor; assumption. }
    constructor; [apply F|apply all_of_forall; apply F].
  - exists (OArr l). split; [reflexivity|constructor].
  - destruct H' as ((keys & K & N) & A). apply all_of_forall in A. cbn [lists_to_numpy_array].
    assert (X : exists items', each (fun kv => match kv with (k, v) => pair_result (lists_to_numpy_array k) (lists_to_numpy_array v) end) items = Ok items' /\ Forall2 (fun kv kv' => fst kv = fst kv' /\ arrays_of (snd kv) (snd kv')) items items').
    { clear N. revert keys K. induction items as [|[k v] items IH]; intros keys K; [exists []; split; [reflexivity|constructor]|].
      destruct (string_keys_cons _ _ _ _ K) as (s & keys' & -> & -> & K'). inversion H as [|? ? (_ & Hv) H2]; inversion A as [|? ? Av A2]; subst.
      destruct (Hv Av) as (out & E & R). destruct (IH H2 A2 keys' K') as (items' & E' & R'). exists ((OPy (SStr s), out) :: items'). cbn [each lists_to_numpy_array]. cbn [snd] in E. rewrite E. cbn. rewrite E'. split; [reflexivity|].
      constructor; [split; [reflexivity|exact R]|exact R']. }
    destruct X as (items' & E & R). exists (ODict items'). rewrite E. split; [reflexivity|]. constructor. exact R.
Qed.

(** make_jsonable accepts exactly the known objects. *)
Lemma make_known : forall o, known o <-> exists j, make_jsonable o = Ok j.
Proof.
  induction o using obj_induction; cbn [known]; try (split; [intros _; eexists; reflexivity|intros _; exact I]).
  1,2: rewrite all_of_forall; cbn [make_jsonable]; (split; [|]).
  - intro F. destruct (forall_exists2 _ _ (fun x y => make_jsonable x = Ok y) l) as (l' & F2).
    { clear - F H. induction l as [|x l IH]; [constructor|]. inversion F as [|? ? F1 F2]; inversion H as [|? ? G1 G2]; subst. constructor; [apply G1; exact F1|apply IH; assumption]. }
    exists (OList l'). rewrite (each_ok _ _ _ _ _ F2). reflexivity.
  - intros (j & J). destruct (each make_jsonable l) as [l'|] eqn:E; [|discriminate]. apply each_inv in E. clear J j. induction E as [|x y l l' Ex E IH]; constructor; inversion H as [|? ? G1 G2]; subst; [apply G1; eexists; exact Ex|apply IH; assumption].
  - intro F. destruct (forall_exists2 _ _ (fun x y => make_jsonable x = Ok y) l) as (l' & F2).
    { clear - F H. induction l as [|x l IH]; [constructor|]. inversion F as [|? ? F1 F2]; inversion H as [|? ? G1 G2]; subst. constructor; [apply G1; exact F1|apply IH; assumption]. }
    exists (OList l'). rewrite (each_ok _ _ _ _ _ F2). reflexivity.
  - intros (j & J). destruct (each make_jsonable l) as [l'|] eqn:E; [|discriminate]. apply each_inv in E. clear J j. induction E as [|x y l l' Ex E IH]; constructor; inversion H as [|? ? G1 G2]; subst; [apply G1; eexists; exact Ex|apply IH; assumption].
  - rewrite all_of_forall. cbn [make_jsonable]. split.
    + intro F. destruct (forall_exists2 _ _ (fun (kv kv' : obj * obj) => match kv with (k, v) => pair_result (make_jsonable k) (make_jsonable v) end = Ok kv') items) as (l' & F2).
      { clear - F H. induction items as [|[k v] l IH]; [constructor|]. inversion F as [|? ? Fkv F']; inversion H as [|? ? (Hk & Hv) H']; subst. cbv beta iota in Fkv. destruct Fkv as [Fk Fv]. constructor; [|apply IH; assumption].
        apply Hk in Fk. apply Hv in Fv. destruct Fk as (k' & Fk), Fv as (v' & Fv). exists (k', v'). cbn [fst snd] in *. rewrite Fk, Fv. reflexivity. }
      exists (ODict l'). rewrite (each_ok _ _ _ _ _ F2). reflexivity.
    + intros (j & J). destruct (each _ items) as [l'|] eqn:E; [|discriminate]. apply each_inv in E. clear J j. induction E as [|[k v] y l l' Ex E IH]; constructor; inversion H as [|? ? (Hk & Hv) H']; subst; [|apply IH; assumption].
      cbn [fst snd] in *. destruct (make_jsonable k) as [k'|] eqn:Ek; [|discriminate]. destruct (make_jsonable v) as [v'|] eqn:Ev; [|discriminate]. split; [apply Hk; exists k'; reflexivity|apply Hv; exists v'; reflexivity].
  - split; [contradiction|]. intros (j & J). discriminate.
Qed.

(** ** Loads *)

Lemma dict_eq : forall o, (exists items, o = ODict items) -> as_dict o = Ok o.
Proof. intros o (items & ->). reflexivity. Qed.

(** What the file keeps is as good as the parsed object. *)
Definition faithful (r : request) (o j : obj) : Prop := bind (as_dict j) (finish r) = finish r o.

Lemma fits_store : forall r o, fits r o -> check r o = Ok tt /\ exists j, bind (make_jsonable o) (json_trip ft) = Ok j /\ faithful r o j.
Proof.
  intros r o ((items & -> & T) & F). split.
  - destruct r; try reflexivity. cbn. specialize (T eq_refl). replace (existsb _ items) with true; [reflexivity|]. symmetry. apply existsb_exists. apply in_map_iff in T.
    destruct T as (kv & E & I). exists kv. split; [exact I|]. rewrite E. apply String.eqb_refl.
  - unfold faithful. destruct (target r) eqn:Tr.
    + exists (ODict items). rewrite (make_plain _ F). cbn [bind]. rewrite (trip_plain _ F). split; reflexivity.
    + destruct (storable_trip _ F) as (j & (m & M & J) & E & D). exists j. rewrite M. cbn [bind]. rewrite J. split; [reflexivity|]. destruct (D items eq_refl) as (items' & ->). cbn [as_dict bind].
      destruct r; try discriminate; exact E.
Qed.

Lemma fits_returned : forall r o, fits r o -> exists out, finish r o = Ok out /\ returned r o out.
Proof.
  intros r o (_ & F). unfold returned. destruct (target r) eqn:Tr.
  - exists o. destruct r; try discriminate; split; reflexivity.
  - destruct (storable_arrays o F) as (out & E & R). exists out. destruct r; try discriminate; split; assumption.
Qed.

Lemma load_first : forall parse r d o, dget String.eqb (files d) (path r) = None -> parse r = Ok o -> fits r o ->
  exists j out, load ft parse r d = (mkDisk (dset String.eqb (files d) (path r) (Written j)) (S (parses d)), Ok out) /\ faithful r o j /\ finish r o = Ok out /\ returned r o out.
Proof.
  intros parse r d o N P F. destruct (fits_store r o F) as (C & j & J & H). destruct (fits_returned r o F) as (out & E & R). exists j, out. unfold load. rewrite N, P. cbn [bind]. rewrite C. cbn [bind]. rewrite J, E.
  split; [reflexivity|]. split; [exact H|]. split; [reflexivity|exact R].
Qed.

Lemma load_keeps : forall parse r d p f, dget String.eqb (files d) p = Some f -> dget String.eqb (files (fst (load ft parse r d))) p = Some f.
Proof.
  intros parse r d p f E. unfold load. destruct (dget String.eqb (files d) (path r)) as [[o|]|] eqn:G; try exact E.
  assert (N : path r <> p) by congruence.
  destruct (bind (parse r) _); [|exact E]. destruct (bind (make_jsonable a) _); cbn [fst files put_file]; rewrite dget_dset_other; try exact E; try apply String.eqb_eq; congruence.
Qed.

Lemma load_all_keeps : forall rs d p f, dget String.eqb (files d) p = Some f -> dget String.eqb (files (fst (load_all ft rs d))) p = Some f.
Proof.
  induction rs as [|[r parse] rs IH]; intros d p f E; [exact E|]. cbn [load_all]. pose proof (load_keeps parse r d p f E) as K. destruct (load ft parse r d) as [d1 o]. cbn [fst] in K.
  specialize (IH d1 p f K). destruct (load_all ft rs d1) as [d2 os]. exact IH.
Qed.

Lemma load_other : forall parse r d p, p <> path r -> dget String.eqb (files (fst (load ft parse r d))) p = dget String.eqb (files d) p.
Proof.
  intros parse r d p N. unfold load. destruct (dget String.eqb (files d) (path r)) as [[o|]|]; try reflexivity.
  destruct (bind (parse r) _); [|reflexivity]. destruct (bind (make_jsonable a) _); cbn [fst files put_file]; rewrite dget_dset_other; try reflexivity; try apply String.eqb_eq; congruence.
Qed.

Lemma load_cached : forall parse r d j, dget String.eqb (files d) (path r) = Some (Written j) -> load ft parse r d = (d, bind (as_dict j) (finish r)).
Proof. intros parse r d j E. unfold load. rewrite E. reflexivity. Qed.

Lemma load_frozen : forall parse r d o d1 out, dget String.eqb (files d) (path r) = None -> parse r = Ok o -> fits r o -> load ft parse r d = (d1, Ok out) ->
  forall rs parse', load ft parse' r (fst (load_all ft rs d1)) = (fst (load_all ft rs d1), Ok out).
Proof.
  intros parse r d o d1 out N P F E rs parse'. destruct (load_first parse r d o N P F) as (j & out' & E' & H & Fi & _). rewrite E' in E. injection E as <- <-.
  rewrite (load_cached parse' r _ j); [rewrite H, Fi; reflexivity|]. apply load_all_keeps. cbn [files]. apply dget_dset_same. apply String.eqb_eq.
Qed.

(** Sequences with one steady parser. *)
Section Steady.
Variable parse : request -> result obj.
Variable answers : request -> obj.

Definition sound (seen : list request) (d : disk) : Prop :=
  (forall p, dget String.eqb (files d) p = None -> ~ In p (map path seen)) /\
  (forall p f, dget String.eqb (files d) p = Some f -> exists r j, In r seen /\ path r = p /\ f = Written j /\ faithful r (answers r) j).

Lemma sequence_main : forall rs seen d,
  (forall r, In r (rs ++ seen) -> parse r = Ok (answers r) /\ fits r (answers r)) ->
  (forall r r', In r (rs ++ seen) -> In r' (rs ++ seen) -> path r = path r' -> answers r = answers r' /\ target r = target r') ->
  sound seen d ->
  exists d', load_all ft (map (fun r => (r, parse)) rs) d = (d', map (fun r => finish r (answers r)) rs) /\
    parses d' = (parses d + length (filter (fun p => negb (if in_dec string_dec p (map path seen) then true else false)) (nodup string_dec (map path rs))))%nat.
Proof.
  induction rs as [|r rs IH]; intros seen d F S H; [exists d; split; [reflexivity|cbn; lia]|].
  cbn [map load_all].
  assert (IH' : forall d1, sound (r :: seen) d1 -> exists d', load_all ft (map (fun r => (r, parse)) rs) d1 = (d', map (fun r => finish r (answers r)) rs) /\
    parses d' = (parses d1 + length (filter (fun p => negb (if in_dec string_dec p (map path (r :: seen)) then true else false)) (nodup string_dec (map path rs))))%nat).
  { intros d1 H1. apply IH; [| |exact H1]; intros; [apply F|apply S; try assumption]; rewrite ?in_app_iff in *; cbn in *; rewrite ?in_app_iff in *; tauto. }
  assert (C : length (filter (fun p => negb (if in_dec string_dec p (map path seen) then true else false)) (nodup string_dec (path r :: map path rs))) =
    ((if in_dec string_dec (path r) (map path seen) then 0 else 1) + length (filter (fun p => negb (if in_dec string_dec p (map path (r :: seen)) then true else false)) (nodup string_dec (map path rs))))%nat).
  { pose proof (NoDup_nodup string_dec (map path rs)) as ND. cbn [map nodup].
    assert (G : forall l, ~ In (path r) l -> filter (fun p => negb (if in_dec string_dec p (path r :: map path seen) then true else false)) l = filter (fun p => negb (if in_dec string_dec p (map path seen) then true else false)) l).
    { induction l as [|x l IHl]; intros N; [reflexivity|]. cbn [filter]. rewrite IHl; [|intro I; apply N; right; exact I].
      destruct (in_dec string_dec x (path r :: map path seen)) as [I|I]; destruct (in_dec string_dec x (map path seen)) as [J|J]; try reflexivity; exfalso.
      - destruct I as [E0|I]; [apply N; left; symmetry; exact E0|contradiction].
      - apply I. right. exact J. }
    assert (G2 : forall l, NoDup l -> In (path r) l -> length (filter (fun p => negb (if in_dec string_dec p (map path seen) then true else false)) l) =
      ((if in_dec string_dec (path r) (map path seen) then 0 else 1) + length (filter (fun p => negb (if in_dec string_dec p (path r :: map path seen) then true else false)) l))%nat).
    { induction l as [|x l IHl]; intros N I; [destruct I|]. inversion N; subst. destruct (string_dec x (path r)) as [->|Ne].
      - cbn [filter]. destruct (in_dec string_dec (path r) (path r :: map path seen)) as [_|X]; [|exfalso; apply X; left; reflexivity]. cbn [negb]. rewrite (G l) by assumption.
        destruct (in_dec string_dec (path r) (map path seen)); cbn [negb length]; lia.
      - destruct I as [E|I]; [congruence|]. specialize (IHl H3 I). cbn [filter]. destruct (in_dec string_dec x (path r :: map path seen)) as [I1|I1]; destruct (in_dec string_dec x (map path seen)) as [J|J]; cbn [negb length]; try lia; exfalso.
        + destruct I1 as [E|I1]; [congruence|contradiction].
        + apply I1. right. exact J. }
    destruct (in_dec string_dec (path r) (map path rs)) as [I|I].
    - apply G2; [exact ND|]. apply nodup_In. exact I.
    - cbn [filter]. rewrite G; [|rewrite nodup_In; exact I]. destruct (in_dec string_dec (path r) (map path seen)); cbn [negb length]; lia. }
  rewrite C. destruct H as (H1 & H2). destruct (dget String.eqb (files d) (path r)) as [f|] eqn:E.
  - destruct (H2 _ _ E) as (r0 & j & I0 & P0 & -> & Fa). rewrite (load_cached parse r d j E).
    assert (In0 : In r0 ((r :: rs) ++ seen)%list) by (apply in_or_app; right; exact I0).
    destruct (S r r0 (or_introl eq_refl) In0 (eq_sym P0)) as (Ea & Et).
    assert (Fr : bind (as_dict j) (finish r) = finish r (answers r)).
    { rewrite Ea. unfold faithful in Fa. destruct r, r0; cbn in Et; try discriminate; exact Fa. }
    rewrite Fr. destruct (IH' d) as (d' & L & Pn).
    { split; [intros p N [Ep|I]; [congruence|apply (H1 p N I)]|]. intros p f' E'. destruct (H2 _ _ E') as (r1 & j1 & I1 & X). exists r1, j1. split; [right; exact I1|exact X]. }
    rewrite L. exists d'. split; [reflexivity|]. rewrite Pn. destruct (in_dec string_dec (path r) (map path seen)) as [I|I]; [lia|]. exfalso. apply I. rewrite <- P0. apply in_map. exact I0.
  - destruct (load_first parse r d (answers r) E) as (j & out & L & Fa & Fi & _); [apply F; left; reflexivity|apply F; left; reflexivity|]. rewrite L.
    destruct (IH' (mkDisk (dset String.eqb (files d) (path r) (Written j)) (Datatypes.S (parses d)))) as (d' & L' & Pn).
    { split; cbn [files].
      - intros p N [Ep|I]; [rewrite Ep, dget_dset_same in N; [discriminate|apply String.eqb_eq]|]. destruct (string_dec (path r) p) as [<-|Ne]; [rewrite dget_dset_same in N; [discriminate|apply String.eqb_eq]|].
        rewrite dget_dset_other in N; [apply (H1 p N I)|apply String.eqb_eq|congruence].
      - intros p f' E'. destruct (string_dec (path r) p) as [<-|Ne].
        + rewrite dget_dset_same in E'; [|apply String.eqb_eq]. injection E' as <-. exists r, j. split; [left; reflexivity|]. split; [reflexivity|]. split; [reflexivity|exact Fa].
        + rewrite dget_dset_other in E'; [|apply String.eqb_eq|congruence]. destruct (H2 _ _ E') as (r1 & j1 & I1 & X). exists r1, j1. split; [right; exact I1|exact X]. }
    rewrite L'. exists d'. rewrite Fi. split; [reflexivity|]. rewrite Pn. cbn [parses]. destruct (in_dec string_dec (path r) (map path seen)) as [I|I]; [exfalso; apply (H1 _ E I)|lia].
Qed.
End Steady.
End J.
