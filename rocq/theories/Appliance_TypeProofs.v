(** * Proofs about the appliance type helpers. *)

From Coq Require Import Ascii String List ZArith QArith Qround Bool Arith Lia Lqa.
From Verif Require Import Prelude PreludeFacts SpecBase SpecBaseFacts Appliance_Model Appliance_Spec Matrix_Proofs.
Import ListNotations.

Open Scope string_scope.

(** ** Words *)

Fixpoint no_us (s : string) : bool := match s with EmptyString => true | String c t => negb (Ascii.eqb c "_") && no_us t end.

Lemma split_us_cons : forall s, exists w ws, split_us s = w :: ws /\ no_us w = true.
Proof.
  induction s as [|c s (w & ws & E & N)]; simpl; [eauto|]. destruct (Ascii.eqb c "_") eqn:Ec; [eauto|].
  rewrite E. exists (String c w), ws. simpl. rewrite Ec, N. auto.
Qed.

Lemma join_split : forall s, join_us (split_us s) = s.
Proof.
  unfold join_us. induction s as [|c s IH]; [reflexivity|]. simpl. destruct (split_us_cons s) as (w & ws & E & _).
  rewrite E in *. destruct (Ascii.eqb_spec c "_") as [->|].
  - change ("" ++ "_" ++ String.concat "_" (w :: ws) = String "_" s). rewrite IH. reflexivity.
  - destruct ws as [|w' ws]; simpl in *; congruence.
Qed.

Lemma remove_start_some : forall s t, remove_start s = Some t <-> exists w, no_us w = true /\ s = w ++ "_" ++ t.
Proof.
  intros s t. unfold remove_start. split.
  - destruct (split_us_cons s) as (w & ws & E & N). rewrite E. destruct ws as [|w' ws]; [discriminate|]. intros [= <-].
    exists w. split; [exact N|]. pose proof (join_split s) as J. rewrite E in J. rewrite <- J at 1. reflexivity.
  - intros (w & N & ->). induction w as [|c w IH].
    + simpl. destruct (split_us_cons t) as (w' & ws & E & _). pose proof (join_split t) as J. rewrite E in *. rewrite J. reflexivity.
    + simpl in N. apply andb_true_iff in N. destruct N as [N1 N2]. specialize (IH N2). simpl.
      destruct (Ascii.eqb c "_"); [discriminate|].
      destruct (split_us_cons (w ++ String "_" t)) as (w' & ws & E & _). simpl in IH. rewrite E in *.
      destruct ws; [discriminate|]. exact IH.
Qed.

Lemma remove_start_none : forall s, remove_start s = None -> forall p t, s <> p ++ "_" ++ t.
Proof.
  intros s H p t ->. assert (X : exists w t', no_us w = true /\ p ++ "_" ++ t = w ++ "_" ++ t').
  { clear H. induction p as [|c p (w & t' & N & E)].
    - exists "", t. auto.
    - destruct (Ascii.eqb_spec c "_") as [->|Hc].
      + exists "", (p ++ "_" ++ t). auto.
      + exists (String c w), t'. simpl. simpl in E. rewrite E. split; [|reflexivity]. rewrite N.
        destruct (Ascii.eqb_spec c "_"); [contradiction|reflexivity]. }
  destruct X as (w & t' & N & E). rewrite E in H. assert (Y : remove_start (w ++ "_" ++ t') = Some t') by (apply remove_start_some; eauto).
  congruence.
Qed.

(** The suffixes of a string are itself and those of the string without its
    first word. *)
Lemma app_us_split : forall w t p u, no_us w = true -> w ++ String "_" t = p ++ String "_" u ->
  u = t \/ exists p', t = p' ++ String "_" u.
Proof.
  induction w as [|c w IH]; intros t p u N E.
  - destruct p as [|c p]; simpl in E.
    + injection E as ->. auto.
    + injection E as <- ->. eauto.
  - simpl in N. apply andb_true_iff in N. destruct N as [N1 N2]. destruct p as [|c' p]; simpl in E.
    + injection E as -> _. discriminate.
    + injection E as _ E. eauto.
Qed.

Lemma word_suffix_step : forall s s' t, remove_start s = Some s' -> (word_suffix t s <-> t = s \/ word_suffix t s').
Proof.
  intros s s' t H. apply remove_start_some in H. destruct H as (w & N & ->). unfold word_suffix. split.
  - intros [->|[p E]]; [auto|]. right. destruct (app_us_split w s' p t N E) as [->|[p' ->]]; [auto|]. right. exists p'. reflexivity.
  - intros [->|[->|[p ->]]]; [auto| |].
    + right. exists w. reflexivity.
    + right. exists (w ++ "_" ++ p). clear. induction w as [|c w IH]; simpl; [reflexivity|]. f_equal. exact IH.
Qed.

Lemma app_length : forall a b, String.length (a ++ b) = (String.length a + String.length b)%nat.
Proof. induction a as [|c a IH]; intro b; simpl; [reflexivity|]. rewrite IH. reflexivity. Qed.

Lemma remove_start_shorter : forall s t, remove_start s = Some t -> (String.length t < String.length s)%nat.
Proof. intros s t H. apply remove_start_some in H. destruct H as (w & _ & ->). rewrite !app_length. simpl. lia. Qed.

Lemma word_suffix_length : forall t s, word_suffix t s -> (String.length t <= String.length s)%nat.
Proof. intros t s [->|[p ->]]; [lia|]. rewrite !app_length. simpl. lia. Qed.

Lemma str_in_In : forall x l, str_in x l = true <-> In x l.
Proof.
  intros x l. unfold str_in. rewrite existsb_exists. split.
  - intros (y & H & E). apply String.eqb_eq in E. now subst.
  - intro H. exists x. split; [exact H|apply String.eqb_refl].
Qed.

Lemma word_suffix_refl : forall s, word_suffix s s.
Proof. intro s. left. reflexivity. Qed.

Lemma word_suffix_of_step : forall s s' t, remove_start s = Some s' -> word_suffix t s' -> word_suffix t s.
Proof. intros s s' t H W. apply (word_suffix_step s s' t H). auto. Qed.

Lemma closest_loop_spec : forall fuel s types, (String.length s <= fuel)%nat ->
  match closest_loop fuel s types with
  | Some t => is_closest s types t
  | None => forall t, t <> "" -> word_suffix t s -> ~ In t types
  end.
Proof.
  induction fuel as [|fuel IH]; intros s types Hf.
  - destruct s; [|simpl in Hf; lia]. simpl. intros t Ht W. destruct W as [->|[p E]]; [congruence|]. destruct p; discriminate.
  - destruct s as [|c s].
    + simpl. intros t Ht W. destruct W as [->|[p E]]; [congruence|]. destruct p; discriminate.
    + set (s0 := String c s) in *. change (closest_loop (S fuel) s0 types) with
        (if str_in s0 types then Some s0 else match remove_start s0 with None => None | Some s' => closest_loop fuel s' types end).
      destruct (str_in s0 types) eqn:Ei.
      * apply str_in_In in Ei. split; [discriminate|]. split; [apply word_suffix_refl|]. split; [exact Ei|]. auto.
      * assert (Hn : ~ In s0 types) by (rewrite <- str_in_In; congruence).
        destruct (remove_start s0) as [s'|] eqn:Er.
        -- pose proof (remove_start_shorter _ _ Er) as Hl. specialize (IH s' types ltac:(lia)).
           destruct (closest_loop fuel s' types) as [t|].
           ++ destruct IH as (I1 & I2 & I3 & I4). split; [exact I1|]. split; [apply (word_suffix_of_step _ _ _ Er I2)|]. split; [exact I3|].
              intros t' Ht' W Hin. apply (word_suffix_step _ _ _ Er) in W. destruct W as [->|W]; [contradiction|]. auto.
           ++ intros t Ht W Hin. apply (word_suffix_step _ _ _ Er) in W. destruct W as [->|W]; [contradiction|]. exact (IH t Ht W Hin).
        -- intros t Ht [->|[p E]] Hin; [contradiction|]. exact (remove_start_none _ Er p t E).
Qed.

Lemma find_closest_spec : forall s types,
  match find_closest_type s types with
  | Some t => is_closest s types t
  | None => forall t, t <> "" -> word_suffix t s -> ~ In t types
  end.
Proof. intros. apply closest_loop_spec. lia. Qed.

Lemma is_closest_fun : forall s types t t', is_closest s types t -> is_closest s types t' -> t = t'.
Proof.
  intros s types t t' (A1 & A2 & A3 & A4) (B1 & B2 & B3 & B4). pose proof (A4 t' B1 B2 B3) as H1. pose proof (B4 t A1 A2 A3) as H2.
  destruct H1 as [H1|[p H1]]; [congruence|]. pose proof (word_suffix_length _ _ H2). rewrite H1, !app_length in H. simpl in H. lia.
Qed.

Lemma find_closest_iff : forall s types t, find_closest_type s types = Some t <-> is_closest s types t.
Proof.
  intros s types t. pose proof (find_closest_spec s types) as H. split.
  - intro E. rewrite E in H. exact H.
  - intro C. destruct (find_closest_type s types) as [t'|].
    + f_equal. eapply is_closest_fun; eauto.
    + exfalso. destruct C as (C1 & C2 & C3 & _). exact (H t C1 C2 C3).
Qed.

Lemma find_closest_none : forall s types, find_closest_type s types = None <-> forall t, t <> "" -> word_suffix t s -> ~ In t types.
Proof.
  intros s types. pose proof (find_closest_spec s types) as H. destruct (find_closest_type s types) as [t|].
  - split; [discriminate|]. intro N. destruct H as (H1 & H2 & H3 & _). exfalso. exact (N t H1 H2 H3).
  - tauto.
Qed.

(** ** Values by type *)

Definition count_type (types known : list string) (t : string) : nat :=
  length (filter (fun s => match find_closest_type s known with Some t' => String.eqb t' t | None => false end) types).

Lemma dget_dset_same : forall V (d : list (string * V)) k v, dget String.eqb (dset String.eqb d k v) k = Some v.
Proof.
  induction d as [|[k' v'] d IH]; intros k v; simpl; [rewrite String.eqb_refl; reflexivity|].
  destruct (String.eqb k k') eqn:E; simpl; rewrite E; auto.
Qed.

Lemma dget_dset_other : forall V (d : list (string * V)) k k0 v, k0 <> k -> dget String.eqb (dset String.eqb d k v) k0 = dget String.eqb d k0.
Proof.
  induction d as [|[k' v'] d IH]; intros k k0 v H; simpl.
  - destruct (String.eqb_spec k0 k); [contradiction|reflexivity].
  - destruct (String.eqb_spec k k') as [<-|E]; simpl; [destruct (String.eqb_spec k0 k); [contradiction|reflexivity]|].
    destruct (String.eqb k0 k'); [reflexivity|]. auto.
Qed.

Definition counter_ok (before known : list string) (counter : list (string * nat)) : Prop :=
  forall t, dget String.eqb counter t = (let n := count_type before known t in if Nat.eqb n 0 then None else Some n).

Lemma from_dict_spec : forall rest before defaults d counter out, counter_ok before (map fst d) counter ->
  from_dict_loop (length before) rest defaults d counter = Ok out ->
  length out = length rest /\
  forall k s x, at_ rest k s -> at_ out k x ->
    match find_closest_type s (map fst d) with
    | None => at_ defaults (length before + k) x
    | Some t => let n := count_type (before ++ firstn (S k) rest) (map fst d) t in
                let name := if Nat.eqb n 1 then t else t ++ "_" ++ str_of_nat n in
                x = match dget String.eqb d name with Some q => q | None => 0%Q end
    end.
Proof.
  induction rest as [|key rest IH]; intros before defaults d counter out Hc H.
  - simpl in H. injection H as <-. split; [reflexivity|]. intros [|k] s x E; discriminate.
  - assert (Hlen : S (length before) = length (before ++ [key])) by (rewrite List.app_length; simpl; lia).
    simpl in H. destruct (find_closest_type key (map fst d)) as [t|] eqn:Ef.
    + set (n := match dget String.eqb counter t with Some c => S c | None => 1%nat end) in *.
      set (v := match dget String.eqb d (if Nat.eqb n 1 then t else t ++ "_" ++ str_of_nat n) with Some q => q | None => 0%Q end) in *.
      destruct (from_dict_loop (S (length before)) rest defaults d (dset String.eqb counter t n)) as [o|] eqn:E; simpl in H; [|discriminate].
      injection H as <-.
      assert (Hn : n = count_type (before ++ [key]) (map fst d) t).
      { unfold n. rewrite Hc. unfold count_type. rewrite filter_app, List.app_length. simpl. rewrite Ef, String.eqb_refl. simpl.
        fold (count_type before (map fst d) t). destruct (Nat.eqb_spec (count_type before (map fst d) t) 0); lia. }
      assert (Hc' : counter_ok (before ++ [key]) (map fst d) (dset String.eqb counter t n)).
      { intro t'. destruct (String.eqb_spec t t') as [<-|Hne].
        - rewrite dget_dset_same, <- Hn. cbn zeta. destruct (Nat.eqb_spec n 0) as [E0|]; [|reflexivity].
          exfalso. clear -E0. unfold n in E0. destruct (dget String.eqb counter t); discriminate.
        - rewrite dget_dset_other by congruence. rewrite Hc. unfold count_type. rewrite filter_app, List.app_length. simpl. rewrite Ef.
          destruct (String.eqb_spec t t'); [contradiction|]. simpl. rewrite Nat.add_0_r. reflexivity. }
      rewrite Hlen in E. destruct (IH _ _ _ _ _ Hc' E) as [L A]. split; [simpl; congruence|].
      intros [|k] s x Hs Hx; unfold at_ in *; simpl in Hs, Hx.
      * injection Hs as <-. injection Hx as <-. rewrite Ef. cbn zeta. simpl firstn. rewrite <- Hn. reflexivity.
      * specialize (A k s x Hs Hx). rewrite <- app_assoc in A. cbn [List.app] in A. destruct (find_closest_type s (map fst d)); [exact A|].
        rewrite <- Hlen in A. replace (length before + S k)%nat with (S (length before) + k)%nat by lia. exact A.
    + destruct (vget defaults (length before)) as [v|] eqn:Ev; simpl in H; [|discriminate].
      destruct (from_dict_loop (S (length before)) rest defaults d counter) as [o|] eqn:E; simpl in H; [|discriminate].
      injection H as <-.
      assert (Hc' : counter_ok (before ++ [key]) (map fst d) counter).
      { intro t'. rewrite Hc. unfold count_type. rewrite filter_app, List.app_length. simpl. rewrite Ef. simpl. rewrite Nat.add_0_r. reflexivity. }
      rewrite Hlen in E. destruct (IH _ _ _ _ _ Hc' E) as [L A]. split; [simpl; congruence|].
      intros [|k] s x Hs Hx; unfold at_ in *; simpl in Hs, Hx.
      * injection Hs as <-. injection Hx as <-. rewrite Ef. apply vget_ok in Ev. rewrite Nat.add_0_r. exact Ev.
      * specialize (A k s x Hs Hx). rewrite <- app_assoc in A. cbn [List.app] in A. destruct (find_closest_type s (map fst d)); [exact A|].
        rewrite <- Hlen in A. replace (length before + S k)%nat with (S (length before) + k)%nat by lia. exact A.
Qed.

(** The count is the number of positions so far with that closest type. *)
Fixpoint positions (f : string -> bool) (i : nat) (l : list string) : list nat :=
  match l with [] => [] | x :: t => if f x then i :: positions f (S i) t else positions f (S i) t end.

Lemma positions_in : forall f l i p, In p (positions f i l) <-> exists k s, p = (i + k)%nat /\ at_ l k s /\ f s = true.
Proof.
  intros f. induction l as [|x l IH]; intros i p; simpl.
  - split; [tauto|]. intros (k & s & _ & E & _). destruct k; discriminate.
  - assert (X : In p (positions f (S i) l) <-> exists k s, p = (i + S k)%nat /\ at_ l k s /\ f s = true).
    { rewrite IH. split; intros (k & s & -> & H); exists k, s; split; auto; lia. }
    destruct (f x) eqn:E; simpl; rewrite X; split.
    + intros [<-|(k & s & -> & H1 & H2)]; [exists 0%nat, x; split; [lia|split; [reflexivity|exact E]]|exists (S k), s; split; [reflexivity|split; [exact H1|exact H2]]].
    + intros ([|k] & s & -> & H1 & H2); [left; lia|right; exists k, s; split; [reflexivity|split; [exact H1|exact H2]]].
    + intros (k & s & -> & H1 & H2). exists (S k), s. split; [reflexivity|split; [exact H1|exact H2]].
    + intros ([|k] & s & -> & H1 & H2); [unfold at_ in H1; simpl in H1; congruence|exists k, s; split; [reflexivity|split; [exact H1|exact H2]]].
Qed.

Lemma positions_nodup : forall f l i, NoDup (positions f i l).
Proof.
  intros f. induction l as [|x l IH]; intro i; simpl; [constructor|]. destruct (f x); [|auto]. constructor; [|auto].
  rewrite positions_in. intros (k & s & E & _). lia.
Qed.

Lemma positions_length : forall f l i, length (positions f i l) = length (filter f l).
Proof. intros f. induction l as [|x l IH]; intro i; simpl; [reflexivity|]. destruct (f x); simpl; rewrite IH; reflexivity. Qed.

Lemma at_firstn : forall A (l : list A) n i x, at_ (firstn n l) i x <-> (i < n)%nat /\ at_ l i x.
Proof.
  intros A. unfold at_. induction l as [|a l IH]; intros n i x.
  - destruct n, i; simpl; (split; [discriminate|intros [_ H]; discriminate]).
  - destruct n as [|n]; [simpl; split; [destruct i; discriminate|lia]|]. destruct i as [|i]; simpl; [split; [split; [lia|auto]|tauto]|].
    rewrite IH. split; intros [H1 H2]; split; auto; lia.
Qed.

Lemma count_type_nth : forall types known t k, nth_of_type types known t k (count_type (firstn (S k) types) known t).
Proof.
  intros types known t k. unfold count_type. set (f := fun s => match find_closest_type s known with Some t' => String.eqb t' t | None => false end).
  assert (Ff : forall s, f s = true <-> is_closest s known t).
  { intro s. unfold f. rewrite <- find_closest_iff. destruct (find_closest_type s known) as [t'|]; [rewrite String.eqb_eq|]; split; congruence. }
  exists (positions f 0 (firstn (S k) types)). split; [apply positions_nodup|]. split; [apply positions_length|].
  intro i'. rewrite positions_in. split.
  - intros (i & s & -> & H1 & H2). apply at_firstn in H1. simpl. split; [lia|]. exists s. split; [tauto|]. now apply Ff.
  - intros (H1 & s & H2 & H3). exists i', s. split; [lia|]. split; [apply at_firstn; split; [lia|exact H2]|]. now apply Ff.
Qed.

Lemma nth_of_type_fun : forall types known t i n n', nth_of_type types known t i n -> nth_of_type types known t i n' -> n = n'.
Proof.
  intros types known t i n n' (l & N & L & A) (l' & N' & L' & A'). apply Nat.le_antisymm; rewrite <- L, <- L'; apply NoDup_incl_length; auto;
    intros x Hx; [apply A', A|apply A, A']; exact Hx.
Qed.

Lemma target_spec : forall types defaults d out, get_target_from_dict types defaults d = Ok out ->
  length out = length types /\
  forall i s x, at_ types i s -> at_ out i x ->
    ((forall t, ~ is_closest s (map fst d) t) -> at_ defaults i x) /\
    (forall t n, is_closest s (map fst d) t -> nth_of_type types (map fst d) t i n ->
       x = match dget String.eqb d (if Nat.eqb n 1 then t else t ++ "_" ++ decimal n) with Some q => q | None => 0%Q end).
Proof.
  intros types defaults d out H. unfold get_target_from_dict in H.
  destruct (from_dict_spec types [] defaults d [] out) as [L A]; [intro t; reflexivity|exact H|]. split; [exact L|].
  intros i s x Hs Hx. specialize (A i s x Hs Hx). split.
  - intro N. destruct (find_closest_type s (map fst d)) as [t|] eqn:E; [|exact A]. apply find_closest_iff in E. exfalso. exact (N t E).
  - intros t n C Hn. apply find_closest_iff in C. rewrite C in A. cbn [List.app] in A.
    rewrite (nth_of_type_fun _ _ _ _ _ _ Hn (count_type_nth types (map fst d) t i)). exact A.
Qed.

Lemma target_total : forall types defaults d, length defaults = length types -> exists out, get_target_from_dict types defaults d = Ok out.
Proof.
  intros types defaults d Hl. unfold get_target_from_dict.
  assert (G : forall rest i counter, (i + length rest <= length defaults)%nat -> exists out, from_dict_loop i rest defaults d counter = Ok out).
  { induction rest as [|key rest IH]; intros i counter H; simpl; [eauto|]. simpl in H. destruct (find_closest_type key (map fst d)).
    - match goal with |- exists out, bind (from_dict_loop _ _ _ _ ?c) _ = _ => destruct (IH (S i) c ltac:(lia)) as [o ->] end. simpl. eauto.
    - destruct (lt_at _ defaults i) as [v Hv]; [lia|]. apply vget_ok in Hv. rewrite Hv. simpl.
      destruct (IH (S i) counter ltac:(lia)) as [o ->]. simpl. eauto. }
  apply G. lia.
Qed.

(** ** Ownership of several copies *)

Open Scope Q_scope.

Lemma py_min_spec : forall a b, (a <= b -> py_min a b = a) /\ (b < a -> py_min a b = b).
Proof.
  intros a b. unfold py_min. destruct (Qltb b a) eqn:E; rewrite ?Qltb_lt, ?Qltb_ge in E; split; intro; try reflexivity; lra.
Qed.

Lemma floor_loop_spec : forall fuel r l, floor_loop fuel r = Ok l -> 0 <= r ->
  py_min r 1 + total l == r /\ Forall (fun p => 0 <= p <= 1) l.
Proof.
  induction fuel as [|fuel IH]; intros r l H Hr; simpl in H; destruct (Qltb 1 r) eqn:E; rewrite ?Qltb_lt, ?Qltb_ge in E; try discriminate.
  - injection H as <-. destruct (py_min_spec r 1) as [P _]. rewrite (P E). simpl. split; [lra|constructor].
  - destruct (floor_loop fuel (r - 1)) as [t|] eqn:Ef; simpl in H; [|discriminate]. injection H as <-.
    destruct (IH (r - 1) t Ef ltac:(lra)) as [S F]. destruct (py_min_spec r 1) as [_ P]. rewrite (P E). simpl. split; [lra|].
    constructor; [|exact F]. destruct (py_min_spec (r - 1) 1) as [Q1 Q2]. destruct (Qlt_le_dec 1 (r - 1)) as [L|L]; [rewrite (Q2 L)|rewrite (Q1 L)]; lra.
  - injection H as <-. destruct (py_min_spec r 1) as [P _]. rewrite (P E). simpl. split; [lra|constructor].
Qed.

Lemma floor_loop_total : forall fuel r, r <= inject_Z (Z.of_nat fuel) + 1 -> exists l, floor_loop fuel r = Ok l.
Proof.
  induction fuel as [|fuel IH]; intros r H; simpl; destruct (Qltb 1 r) eqn:E; rewrite ?Qltb_lt, ?Qltb_ge in E; eauto.
  - change (inject_Z (Z.of_nat 0)) with 0 in H. lra.
  - destruct (IH (r - 1)) as [t ->]; [|simpl; eauto]. rewrite Nat2Z.inj_succ, <- Z.add_1_r, inject_Z_plus in H. change (inject_Z 1) with 1 in H. lra.
Qed.

Lemma assign_sum : forall p number l, assign_ownership p number "floor" = Ok l ->
  let n := match number with Some n => n | None => p end in
  total l == n /\ at_ l 0 p /\ Forall (fun q => 0 <= q <= 1) l.
Proof.
  intros p number l H n. unfold assign_ownership in H. fold n in H.
  destruct (Qltb n p || Qltb p 0 || Qltb 1 p || Qltb n 0) eqn:E; [discriminate|].
  repeat (apply orb_false_iff in E; destruct E as [E ?]). rewrite Qltb_ge in *.
  change (String.eqb "floor" "floor") with true in H. cbv iota in H.
  destruct (floor_loop (Z.to_nat (Qceiling n)) (n - p)) as [t|] eqn:Ef; simpl in H; [|discriminate]. injection H as <-.
  destruct (floor_loop_spec _ _ _ Ef ltac:(lra)) as [S F]. split; [simpl; lra|]. split; [reflexivity|].
  constructor; [lra|]. constructor; [|exact F].
  destruct (py_min_spec (n - p) 1) as [Q1 Q2]. destruct (Qlt_le_dec 1 (n - p)) as [L|L]; [rewrite (Q2 L)|rewrite (Q1 L)]; lra.
Qed.

Lemma assign_shape : forall p number l, assign_ownership p number "floor" = Ok l ->
  (forall i x y, (0 < i)%nat -> at_ l i x -> at_ l (S i) y -> x == 1).
Proof.
  intros p number l H i x y Hi Hx Hy. unfold assign_ownership in H. set (n := match number with Some n => n | None => p end) in *.
  destruct (Qltb n p || Qltb p 0 || Qltb 1 p || Qltb n 0); [discriminate|].
  change (String.eqb "floor" "floor") with true in H. cbv iota in H.
  destruct (floor_loop (Z.to_nat (Qceiling n)) (n - p)) as [t|] eqn:Ef; simpl in H; [|discriminate]. injection H as <-.
  destruct i as [|i]; [lia|]. unfold at_ in Hx, Hy. simpl in Hx, Hy.
  assert (G : forall fuel r t, floor_loop fuel r = Ok t -> forall i x y, nth_error (py_min r 1 :: t) i = Some x -> nth_error t i = Some y -> x == 1).
  { clear. induction fuel as [|fuel IH]; intros r t H; simpl in H; destruct (Qltb 1 r) eqn:E; rewrite ?Qltb_lt, ?Qltb_ge in E; try discriminate.
    - injection H as <-. intros [|i] x y _ H; discriminate.
    - destruct (floor_loop fuel (r - 1)) as [t'|] eqn:Ef; simpl in H; [|discriminate]. injection H as <-.
      intros [|i] x y Hx Hy; simpl in Hx, Hy.
      + injection Hx as <-. destruct (py_min_spec r 1) as [_ P]. rewrite (P E). reflexivity.
      + exact (IH _ _ Ef i x y Hx Hy).
    - injection H as <-. intros [|i] x y _ H; discriminate. }
  exact (G _ _ _ Ef i x y Hx Hy).
Qed.

Lemma assign_ok_iff : forall p number, (exists l, assign_ownership p number "floor" = Ok l) <->
  (let n := match number with Some n => n | None => p end in 0 <= p /\ p <= 1 /\ p <= n).
Proof.
  intros p number. unfold assign_ownership. set (n := match number with Some n => n | None => p end). cbn zeta.
  change (String.eqb "floor" "floor") with true. cbv iota.
  destruct (Qltb n p || Qltb p 0 || Qltb 1 p || Qltb n 0) eqn:E.
  - split; [intros [l H]; discriminate|]. intros (H1 & H2 & H3). exfalso.
    repeat (apply orb_true_iff in E; destruct E as [E|E]); rewrite Qltb_lt in E; lra.
  - repeat (apply orb_false_iff in E; destruct E as [E ?]). rewrite Qltb_ge in *. split; [auto|]. intros _.
    destruct (floor_loop_total (Z.to_nat (Qceiling n)) (n - p)) as [t ->]; [|simpl; eauto].
    pose proof (Qle_ceiling n) as C. assert ((0 <= Qceiling n)%Z).
    { assert (inject_Z (-1) < inject_Z (Qceiling n)) by (change (inject_Z (-1)) with (-1); lra). rewrite <- Zlt_Qlt in H2. lia. }
    rewrite Z2Nat.id by assumption. lra.
Qed.

Lemma assign_err : forall p number algo e, assign_ownership p number algo = Err e ->
  e = ValueError.
Proof.
  intros p number algo e H. unfold assign_ownership in H. set (n := match number with Some n => n | None => p end) in *.
  destruct (Qltb n p || Qltb p 0 || Qltb 1 p || Qltb n 0) eqn:E; [congruence|].
  destruct (String.eqb_spec algo "floor") as [->|]; [|congruence].
  destruct (assign_ok_iff p number) as [_ A]. repeat (apply orb_false_iff in E; destruct E as [E ?]). rewrite Qltb_ge in *.
  destruct A as [l Hl]; [cbn zeta; fold n; lra|]. unfold assign_ownership in Hl. fold n in Hl.
  destruct (Qltb n p || Qltb p 0 || Qltb 1 p || Qltb n 0); [discriminate|].
  change (String.eqb "floor" "floor") with true in Hl. cbv iota in Hl. congruence.
Qed.

(** ** Merging dictionaries *)

Lemma merge_spec : forall A (d1 d2 : app_dict A) k, NoDup (map fst (fst d1)) ->
  dget String.eqb (fst (merge_appliance_dict d1 d2)) k =
    if String.eqb k "number" then None
    else match dget String.eqb (fst d1) k, dget String.eqb (fst d2) k with
         | Some v1, Some v2 => Some (v1 ++ v2)%list
         | _, _ => None
         end.
Proof.
  intros A [d1 n1] [d2 n2] k. simpl. intro N.
  assert (G : forall l acc, NoDup (map fst l) -> (forall k', In k' (map fst l) -> dget String.eqb acc k' = None) ->
    dget String.eqb (fold_left (fun acc kv => if String.eqb (fst kv) "number" then acc
       else match dget String.eqb d2 (fst kv) with None => acc | Some v2 => dset String.eqb acc (fst kv) (snd kv ++ v2)%list end) l acc) k
    = match (if String.eqb k "number" then None
             else match dget String.eqb l k, dget String.eqb d2 k with Some v1, Some v2 => Some (v1 ++ v2)%list | _, _ => None end) with
      | Some x => Some x | None => dget String.eqb acc k end).
  { clear. induction l as [|[k0 v0] l IH]; intros acc N Hacc; simpl.
    - destruct (String.eqb k "number"); reflexivity.
    - inversion N as [|? ? N1 N2]; subst. simpl in Hacc.
      assert (Hl : forall w, dget String.eqb l k0 = Some w -> False).
      { intros w Hw. apply N1. clear -Hw. induction l as [|[a b] l IH]; simpl in *; [discriminate|].
        destruct (String.eqb_spec k0 a); [left; congruence|right; auto]. }
      rewrite IH; [|exact N2|].
      + destruct (String.eqb_spec k0 "number") as [->|Hk0].
        * destruct (String.eqb_spec k "number"); [reflexivity|]. destruct (String.eqb_spec k "number"); [contradiction|reflexivity].
        * destruct (dget String.eqb d2 k0) as [v2|] eqn:E2.
          -- destruct (String.eqb_spec k k0) as [->|Hk].
             ++ destruct (String.eqb_spec k0 "number"); [contradiction|]. rewrite E2, dget_dset_same.
                destruct (dget String.eqb l k0) eqn:El; [exfalso; eauto|reflexivity].
             ++ rewrite dget_dset_other by exact Hk. reflexivity.
          -- destruct (String.eqb_spec k k0) as [->|Hk]; [|reflexivity].
             destruct (String.eqb_spec k0 "number"); [contradiction|]. rewrite E2.
             destruct (dget String.eqb l k0) eqn:El; [exfalso; eauto|reflexivity].
      + intros k' Hin. assert (k' <> k0) by (intros ->; contradiction).
        destruct (String.eqb k0 "number"); [auto|]. destruct (dget String.eqb d2 k0); [rewrite dget_dset_other by assumption|]; auto. }
  rewrite G by (auto; intros; reflexivity). simpl. destruct (String.eqb k "number"); [reflexivity|].
  destruct (dget String.eqb d1 k), (dget String.eqb d2 k); reflexivity.
Qed.
