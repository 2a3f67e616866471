(** * Proofs about diaries rebuilt from transitions. *)

From Coq Require Import List ZArith QArith Bool Lia Arith.
From Verif Require Import Prelude PreludeFacts SpecBase SpecBaseFacts Parse_Model Parse_Spec Parse_Proofs Parse_DurProofs Parse_TpmProofs
  Parse_SemiProofs Parse_GroupProofs Atus_Model Atus_Spec.
Import ListNotations.
Local Open Scope nat_scope.

Set Implicit Arguments.

(** ** Checks *)

Lemma require_ok : forall b, require b = Ok tt <-> b = true.
Proof. intros []; simpl; split; intro; congruence. Qed.

Lemma require_any : forall b u, require b = Ok u -> b = true.
Proof. intros [] u; simpl; congruence. Qed.

Lemma list_max_ge : forall l x, In x l -> x <= list_max_nat l.
Proof.
  intros l x H. destruct (le_lt_dec x (list_max_nat l)) as [|Hlt]; auto.
  exfalso. induction l as [|y l IH]; [destruct H|]. destruct H as [->|H]; simpl in Hlt; [lia|]. apply IH; auto. lia.
Qed.

Lemma list_max_in : forall l, l <> [] -> In (list_max_nat l) l.
Proof.
  induction l as [|x l IH]; intro H; [congruence|]. destruct l as [|y l]; [left; simpl; lia|].
  specialize (IH ltac:(congruence)). change (In (Nat.max x (list_max_nat (y :: l))) (x :: y :: l)).
  destruct (Nat.max_spec x (list_max_nat (y :: l))) as [[_ ->]|[_ ->]]; [right; auto|left; auto].
Qed.

Lemma py_max_ok : forall l m, py_max l = Ok m -> l <> [] /\ m = list_max_nat l.
Proof. intros [|x l] m H; simpl in H; [discriminate|]. injection H as <-. split; [congruence|reflexivity]. Qed.

Lemma py_max_total : forall l, l <> [] -> py_max l = Ok (list_max_nat l).
Proof. intros [|x l] H; [congruence|reflexivity]. Qed.

Lemma size_ok : forall given l n, size_of given l = Ok n <-> size given l n.
Proof.
  intros given l n. unfold size_of, size. destruct l as [|y l].
  - simpl. split; [discriminate|]. destruct given; [intros (_ & H & _); congruence|intros ([] & _)].
  - set (L := y :: l). assert (Hne : L <> []) by discriminate. rewrite (py_max_total Hne). cbn [bind]. destruct given as [m|].
    + split.
      * intro H. destruct (list_max_nat L <? m) eqn:E; [|discriminate]. cbn in H. injection H as <-. split; auto. split; auto.
        intros x Hx. apply list_max_ge in Hx. apply Nat.ltb_lt in E. lia.
      * intros (-> & _ & H). replace (list_max_nat L <? m) with true; [reflexivity|]. symmetry. apply Nat.ltb_lt. apply H. apply list_max_in; auto.
    + split.
      * intro H. assert (n = S (list_max_nat L)) by congruence. subst n. clear H. split; [replace (S (list_max_nat L) - 1) with (list_max_nat L) by lia; apply list_max_in; auto|]. split; [lia|].
        intros x Hx. apply list_max_ge in Hx. lia.
      * intros (H1 & H2 & H3). f_equal. pose proof (list_max_ge _ _ H1). specialize (H3 _ (list_max_in Hne)). lia.
Qed.

Lemma states_size_ok : forall given news initial k, states_size given news initial = Ok k <->
  size given news k /\ (given = None \/ exists l, initial = Some l /\ l <> [] /\ forall x, In x l -> x < k).
Proof.
  intros given news initial k. unfold states_size. rewrite <- size_ok. destruct (size_of given news) as [k'|e]; simpl.
  - destruct given as [g|].
    + destruct initial as [l|].
      * split.
        -- intro H. destruct (py_max l) as [m|] eqn:E; [|discriminate]. simpl in H. destruct (m <? k') eqn:E2; [|discriminate]. simpl in H. injection H as <-.
           split; auto. right. exists l. apply py_max_ok in E. destruct E as [E ->]. split; auto. split; auto.
           intros x Hx. apply list_max_ge in Hx. apply Nat.ltb_lt in E2. lia.
        -- intros (E & [H|(l' & E' & H1 & H2)]); [discriminate|]. injection E as ->. injection E' as <-.
           rewrite (py_max_total H1). simpl. replace (list_max_nat l <? k) with true; [reflexivity|]. symmetry. apply Nat.ltb_lt. apply H2. apply list_max_in; auto.
      * split; [discriminate|]. intros (_ & [H|(l' & E' & _)]); discriminate.
    + split; [intro H; split; auto|intros [H _]; auto].
  - split; [discriminate|intros [H _]; discriminate].
Qed.

Lemma same_lengths_ok : forall times persons news, same_lengths times persons news = Ok tt <->
  length persons = length times /\ length news = length times.
Proof.
  intros. unfold same_lengths. destruct (length times =? length persons) eqn:E; cbn [require bind].
  - apply Nat.eqb_eq in E. rewrite require_ok, Nat.eqb_eq. intuition.
  - apply Nat.eqb_neq in E. split; [discriminate|]. intros [H _]. congruence.
Qed.

(** ** The lines at one time *)

Lemma trans_cons : forall a b c times persons news k t p x,
  trans (a :: times) (b :: persons) (c :: news) (S k) t p x <-> trans times persons news k t p x.
Proof. reflexivity. Qed.

Lemma lines_at_in : forall t times persons news p x, In (p, x) (lines_at t times persons news) <-> exists k, trans times persons news k t p x.
Proof.
  intros t. unfold lines_at. induction times as [|a times IH]; intros [|b persons] [|c news] p x; cbn [combine map compress];
    try (split; [intros []|intros (k & H1 & H2 & H3); destruct k; discriminate]);
    try (destruct (Nat.eqb_spec t a)); cbn [compress];
    try (split; [intros []|intros (k & H1 & H2 & H3); destruct k; discriminate]).
  - subst a. cbn [In]. rewrite IH. split.
    + intros [E|(k & H)]; [injection E as -> ->; exists 0; repeat split|exists (S k); auto].
    + intros ([|k] & H); [left; destruct H as (_ & H2 & H3); unfold at_ in *; simpl in *; congruence|right; exists k; auto].
  - rewrite IH. split; [intros (k & H); exists (S k); auto|].
    intros ([|k] & H); [destruct H as (H & _); unfold at_ in H; simpl in H; congruence|exists k; auto].
Qed.

(** The value given last to a key. *)
Fixpoint last_val {A} (p : nat) (kvs : list (nat * A)) : option A :=
  match kvs with
  | [] => None
  | (k, v) :: t => match last_val p t with Some w => Some w | None => if k =? p then Some v else None end
  end.

Lemma last_val_some : forall t times persons news p x, last_val p (lines_at t times persons news) = Some x ->
  exists k, trans times persons news k t p x /\ forall k' x', trans times persons news k' t p x' -> k' <= k.
Proof.
  intros t. unfold lines_at. induction times as [|a times IH]; intros [|b persons] [|c news] p x H; cbn [combine map compress] in H;
    try (simpl in H; discriminate); try (destruct (Nat.eqb_spec t a); simpl in H; discriminate).
  destruct (Nat.eqb_spec t a) as [->|Hne].
  - cbn [last_val] in H. destruct (last_val p (compress _ _)) as [w|] eqn:E.
    + injection H as ->. destruct (IH _ _ _ _ E) as (k & H1 & H2). exists (S k). split; auto.
      intros [|k'] x' H'; [lia|]. apply (H2 k' x') in H'. lia.
    + destruct (Nat.eqb_spec b p) as [->|]; [|discriminate]. injection H as ->. exists 0. split; [repeat split|].
      intros [|k'] x' H'; auto. exfalso.
      assert (Hn : forall q l, last_val q l = None -> forall v : nat, ~ In (q, v) l).
      { clear. induction l as [|[k v] l IH]; intros H w Hin; [destruct Hin|]. simpl in H. destruct (last_val q l); [discriminate|].
        destruct Hin as [E|Hin]; [injection E as -> ->; rewrite Nat.eqb_refl in H; discriminate|]. eapply IH; eauto. }
      eapply (Hn _ _ E x'). apply lines_at_in. exists k'. exact H'.
  - destruct (IH _ _ _ _ H) as (k & H1 & H2). exists (S k). split; auto.
    intros [|k'] x' H'; [lia|]. apply (H2 k' x') in H'. lia.
Qed.

Lemma last_val_none : forall A p (l : list (nat * A)), last_val p l = None <-> forall v, ~ In (p, v) l.
Proof.
  induction l as [|[k v] l IH]; simpl; [split; auto|]. destruct (last_val p l) as [w|].
  - split; [discriminate|]. intro H. exfalso. assert (C : Some w = None) by (apply IH; intros v' Hv'; apply (H v'); auto). discriminate.
  - destruct (Nat.eqb_spec k p) as [->|Hk].
    + split; [discriminate|]. intro H. exfalso. apply (H v). auto.
    + split; [|auto]. intros _ v' [E|E]; [congruence|]. apply (proj1 IH eq_refl v' E).
Qed.

Lemma put_all_ok : forall A (kvs : list (nat * A)) l l', put_all kvs l = Ok l' ->
  length l' = length l /\ (forall k v, In (k, v) kvs -> k < length l) /\
  forall p, nth_error l' p = match last_val p kvs with Some v => Some v | None => nth_error l p end.
Proof.
  induction kvs as [|[k v] kvs IH]; intros l l' H; cbn [put_all last_val] in *.
  - injection H as <-. repeat split; auto. intros k v [].
  - destruct (set1 k v l) as [l1|] eqn:E; [|discriminate]. cbn [bind] in H.
    unfold set1 in E. apply upd_ok in E. destruct E as (x & y & H1 & H2 & H3 & H4 & H5). injection H2 as <-.
    destruct (IH _ _ H) as (L & B & V). split; [congruence|]. split.
    + intros k' v' [E|Hin]; [injection E as <- <-; apply nth_error_Some; congruence|]. rewrite <- H4. eapply B; eauto.
    + intro p. rewrite V. destruct (last_val p kvs); auto. destruct (Nat.eqb_spec k p) as [->|Hk]; auto.
Qed.

Lemma put_all_total : forall A (kvs : list (nat * A)) l, (forall k v, In (k, v) kvs -> k < length l) -> exists l', put_all kvs l = Ok l'.
Proof.
  induction kvs as [|[k v] kvs IH]; intros l H; cbn [put_all]; [eauto|].
  assert (Hk : k < length l) by (eapply H; left; eauto).
  destruct (nth_error l k) as [x|] eqn:E; [|apply nth_error_None in E; lia].
  destruct (@upd_total _ k (fun _ => Ok v) l x v E eq_refl) as [l1 H1]. unfold set1. rewrite H1. cbn [bind].
  apply IH. apply upd_ok in H1. destruct H1 as (_ & _ & _ & _ & _ & H4 & _). rewrite H4. intros; eapply H; right; eauto.
Qed.

(** ** The states over time *)

(** [st] holds the states before the transitions of time [t]. *)
Definition before_time (times persons news initial : list nat) (t : nat) (st : list nat) : Prop :=
  length st = length initial /\
  forall p x, at_ st p x <-> p < length initial /\
    ((exists k i, trans times persons news k i p x /\ i < t /\
        forall k' i' x', trans times persons news k' i' p x' -> i' < t -> i' < i \/ i' = i /\ k' <= k) \/
     (forall k i x', trans times persons news k i p x' -> t <= i) /\ at_ initial p x).

Lemma before_zero : forall times persons news initial, before_time times persons news initial 0 initial.
Proof.
  intros. split; auto. intros p x. split.
  - intro H. split; [eapply at_lt; eauto|]. right. split; auto. intros; lia.
  - intros (_ & [(k & i & _ & H & _)|[_ H]]); [lia|auto].
Qed.

Lemma before_step : forall times persons news initial t st st', before_time times persons news initial t st ->
  put_all (lines_at t times persons news) st = Ok st' -> before_time times persons news initial (S t) st'.
Proof.
  intros times persons news initial t st st' [L V] H. destruct (put_all_ok _ _ H) as (L' & B & W). split; [congruence|].
  assert (Hbound : forall k p x, trans times persons news k t p x -> p < length initial).
  { intros k p x Hk. rewrite <- L. apply (B p x). apply lines_at_in. eauto. }
  intros p x. unfold at_ at 1. rewrite W. destruct (last_val p (lines_at t times persons news)) as [w|] eqn:E.
  - apply last_val_some in E. destruct E as (k & Hk & Hmax). split.
    + intro E. injection E as <-. split; [eapply Hbound; eauto|]. left. exists k, t. split; auto. split; [lia|].
      intros k' i' x' H' Hi'. destruct (Nat.eq_dec i' t) as [->|]; [right; split; auto; eapply Hmax; eauto|left; lia].
    + intros (_ & [(k' & i' & Hk' & Hi' & Hm')|[Hn _]]).
      * destruct (Hm' k t w Hk ltac:(lia)) as [|[-> Hle]]; [lia|]. pose proof (Hmax _ _ Hk'). assert (k = k') by lia. subst k'.
        destruct Hk as (_ & _ & A1). destruct Hk' as (_ & _ & A2). unfold at_ in *. congruence.
      * specialize (Hn k t w Hk). lia.
  - assert (Hno : forall k x', ~ trans times persons news k t p x').
    { intros k x' Hk. apply (proj1 (last_val_none p _) E x'). apply lines_at_in. eauto. }
    fold (at_ st p x). rewrite V. split; intros (Hp & Hs); split; auto.
    + destruct Hs as [(k & i & Hk & Hi & Hm)|[Hn Ha]]; [left|right].
      * exists k, i. split; auto. split; [lia|]. intros k' i' x' H' Hi'. apply (Hm k' i' x' H').
        destruct (Nat.eq_dec i' t) as [->|]; [exfalso; eapply Hno; eauto|lia].
      * split; auto. intros k i x' Hk. specialize (Hn k i x' Hk). destruct (Nat.eq_dec i t) as [->|]; [exfalso; eapply Hno; eauto|lia].
    + destruct Hs as [(k & i & Hk & Hi & Hm)|[Hn Ha]]; [left|right].
      * assert (i <> t) by (intros ->; eapply Hno; eauto). exists k, i. split; auto. split; [lia|].
        intros k' i' x' H' Hi'. apply (Hm k' i' x' H'). lia.
      * split; auto. intros k i x' Hk. specialize (Hn k i x' Hk). lia.
Qed.

Lemma replay_ok : forall times persons news initial n t st cols, before_time times persons news initial t st ->
  replay times persons news st (seq t n) = Ok cols ->
  length cols = n /\ forall j c, at_ cols j c -> before_time times persons news initial (S (t + j)) c.
Proof.
  induction n as [|n IH]; intros t st cols Hst H; cbn [seq replay] in H.
  - injection H as <-. split; auto. intros [|j] c Hc; discriminate.
  - destruct (put_all (lines_at t times persons news) st) as [st'|] eqn:E; [|discriminate]. cbn [bind] in H.
    destruct (replay times persons news st' (seq (S t) n)) as [rest|] eqn:R; [|discriminate]. cbn [bind] in H. injection H as <-.
    pose proof (before_step Hst E) as Hst'. destruct (IH _ _ _ Hst' R) as [L V]. split; [simpl; lia|].
    intros [|j] c Hc; unfold at_ in Hc; simpl in Hc.
    + injection Hc as <-. rewrite Nat.add_0_r. auto.
    + replace (t + S j) with (S t + j) by lia. apply V. auto.
Qed.

Lemma replay_total : forall times persons news ts st, (forall p, In p persons -> p < length st) ->
  exists cols, replay times persons news st ts = Ok cols.
Proof.
  induction ts as [|t ts IH]; intros st H; cbn [replay]; [eauto|].
  destruct (@put_all_total _ (lines_at t times persons news) st) as [st' E].
  { intros k v Hin. apply lines_at_in in Hin. destruct Hin as (j & _ & Hj & _). apply H. eapply at_in; eauto. }
  rewrite E. cbn [bind]. destruct (put_all_ok _ _ E) as (L & _). destruct (IH st') as [cols C]; [rewrite L; auto|]. rewrite C. cbn [bind]. eauto.
Qed.

Lemma before_state : forall times persons news initial t st, before_time times persons news initial (S t) st ->
  forall p x, at_ st p x <-> p < length initial /\ state_at times persons news initial p t x.
Proof.
  intros times persons news initial t st [_ V] p x. rewrite V. unfold state_at, latest. split; intros (Hp & Hs); split; auto.
  - destruct Hs as [(k & i & Hk & Hi & Hm)|[Hn Ha]]; [left|right; auto].
    exists k, i. split; auto. split; [lia|]. intros k' i' x' H' Hi'. apply (Hm k' i' x' H'). lia.
  - destruct Hs as [(k & i & Hk & Hi & Hm)|[Hn Ha]]; [left|right; auto].
    exists k, i. split; auto. split; [lia|]. intros k' i' x' H' Hi'. apply (Hm k' i' x' H'). lia.
Qed.

(** ** The initial check *)

Lemma forallb_eq_combine : forall l l' : list nat, length l' = length l ->
  (forallb (fun xy => Nat.eqb (fst xy) (snd xy)) (combine l l') = true <-> l = l').
Proof.
  induction l as [|x l IH]; intros [|y l'] H; simpl in *; try discriminate; [tauto|].
  rewrite andb_true_iff, Nat.eqb_eq, IH by lia. split; [intros [-> ->]; auto|intro E; injection E; auto].
Qed.

Lemma take_at_map : forall (initial : list nat) l, (forall p x, In (p, x) l -> at_ initial p x) -> take_at initial (map fst l) = Ok (map snd l).
Proof.
  intros initial l H. destruct (@take_at_total _ initial (map fst l)) as [out E].
  { intros k Hk. apply in_map_iff in Hk. destruct Hk as ([p x] & <- & Hin). eapply at_lt. eapply H; eauto. }
  rewrite E. f_equal. apply take_at_ok in E. destruct E as [L V]. apply nth_list_ext. intro j.
  destruct (nth_error l j) as [[p x]|] eqn:El.
  - rewrite (map_nth_error snd _ _ El). rewrite (V j p (map_nth_error fst _ _ El)). apply (H p x). eapply nth_error_In; eauto.
  - transitivity (@None nat); [|symmetry]; apply nth_error_None; rewrite ?L, ?map_length; apply nth_error_None; auto.
Qed.

Lemma check_start_ok : forall times persons news initial, check_start times persons news initial = Ok tt <-> starts_as times persons news initial.
Proof.
  intros. unfold check_start. set (l := lines_at 0 times persons news).
  assert (Hl : forall p x, In (p, x) l <-> exists k, trans times persons news k 0 p x) by (intros; apply lines_at_in).
  split.
  - intro H. destruct (take_at initial (map fst l)) as [out|] eqn:E; [|discriminate]. cbn [bind] in H. apply require_ok in H.
    apply take_at_ok in E. destruct E as [L V]. apply forallb_eq_combine in H; [|rewrite L, !map_length; auto].
    intros k p x Hk. assert (Hin : In (p, x) l) by (apply Hl; eauto). apply in_at in Hin. destruct Hin as [j Hj].
    specialize (V j p (map_nth_error fst _ _ Hj)). rewrite <- H in V. unfold at_ in Hj. rewrite (map_nth_error snd _ _ Hj) in V. unfold at_. simpl in V. congruence.
  - intro H. rewrite take_at_map; [|intros p x Hin; apply Hl in Hin; destruct Hin as [k Hk]; eapply H; eauto].
    cbn [bind]. apply require_ok. apply forallb_eq_combine; auto.
Qed.
