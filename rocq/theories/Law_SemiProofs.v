(** * Proofs of the law of the semi-Markov simulators. *)

From Coq Require Import List ZArith QArith Bool Arith Lia Lqa.
From Verif Require Import Prelude PreludeFacts SpecBase SpecBaseFacts Sampling_Spec Sampling_Proofs Activity_Model Activity_Spec
  Activity_Proofs Activity_SemiProofs Law_Spec Law_Base Law_ChainProofs.
Import ListNotations.

(** ** Draws read from the front *)

Fixpoint picks (l : list (list Q * nat)) (f : nat -> Q) (r : nat) : Prop :=
  match l with
  | [] => True
  | (row, j) :: t => selects row (f r) j /\ picks t f (S r)
  end.

Lemma picks_shift : forall l u us r, picks l (fun k => nth k (u :: us) 0) (S r) <-> picks l (fun k => nth k us 0) r.
Proof.
  induction l as [|[row j] l IH]; intros u us r; [reflexivity|]. cbn [picks]. rewrite IH. reflexivity.
Qed.

Lemma picks_ext : forall l f g r, (forall k, (r <= k < r + length l)%nat -> f k = g k) -> (picks l f r <-> picks l g r).
Proof.
  induction l as [|[row j] l IH]; intros f g r H; [reflexivity|]. cbn [picks length] in *.
  rewrite (H r) by lia. rewrite (IH f g (S r)); [reflexivity|]. intros k Hk. apply H. lia.
Qed.

Lemma prob_picks : forall l d, (length l <= d)%nat -> (forall row j, In (row, j) l -> is_pdf row) ->
  has_probability d (fun us => picks l (fun k => nth k us 0) 0) (product (map (fun rj => entry (fst rj) (snd rj)) l)).
Proof.
  induction l as [|[row j] l IH]; intros d Hd Hp.
  - apply prob_always. intros us _. exact I.
  - destruct d as [|d]; [cbn in Hd; lia|]. cbn [map product fst snd]. change (S d) with (1 + d)%nat. eapply prob_ext.
    + apply prob_both; [apply (prob_selects row j); apply (Hp row j); left; reflexivity|].
      apply (IH d); [cbn in Hd; lia|]. intros r k H. apply (Hp r k). right. exact H.
    + intros us [Hl _]. destruct us as [|u us]; [discriminate|]. cbv beta. cbn [firstn skipn picks]. rewrite picks_shift. change (nth 0 (u :: us) 0) with u. split.
      * intros [(v & E & H1) H2]. injection E as <-. auto.
      * intros [H1 H2]. split; [exists u; auto|exact H2].
    + reflexivity.
Qed.

Lemma product_app : forall a b, product (a ++ b) == product a * product b.
Proof. induction a as [|x a IH]; intros b; cbn [List.app product]; [ring|]. rewrite IH. ring. Qed.

Lemma filter_length_le : forall A (f : A -> bool) l, (length (filter f l) <= length l)%nat.
Proof. induction l as [|x l IH]; cbn; [lia|]. destruct (f x); cbn; lia. Qed.

(** ** One step of all households *)

Section Move.
  Variables (row : nat -> list Q) (drow : nat -> nat -> list Q).

  Fixpoint moves (c c' : list (nat * Z)) (u v : nat -> Q) (r : nat) : Prop :=
    match c, c' with
    | [], [] => True
    | (x, l) :: t, (x', l') :: t' =>
        if over l
        then selects (row x) (u r) x' /\ (exists e, selects (drow x x') (v r) e /\ l' = (Z.of_nat e - 1)%Z) /\ moves t t' u v (S r)
        else x' = x /\ l' = (l - 1)%Z /\ moves t t' u v r
    | _, _ => False
    end.

  Definition fixed_ok (ab : (nat * Z) * (nat * Z)) : bool :=
    if over (snd (fst ab)) then (0 <=? snd (snd ab) + 1)%Z else ((fst (snd ab) =? fst (fst ab))%nat && (snd (snd ab) =? snd (fst ab) - 1)%Z).

  Definition changing (ab : (nat * Z) * (nat * Z)) : bool := over (snd (fst ab)).
  Definition pick_state (ab : (nat * Z) * (nat * Z)) : list Q * nat := (row (fst (fst ab)), fst (snd ab)).
  Definition pick_time (ab : (nat * Z) * (nat * Z)) : list Q * nat := (drow (fst (fst ab)) (fst (snd ab)), Z.to_nat (snd (snd ab) + 1)).

  Lemma moves_iff : forall c c' u v r, length c = length c' ->
    (moves c c' u v r <-> forallb fixed_ok (combine c c') = true /\
       picks (map pick_state (filter changing (combine c c'))) u r /\ picks (map pick_time (filter changing (combine c c'))) v r).
  Proof.
    induction c as [|[x l] c IH]; intros [|[x' l'] c'] u v r Hl; try discriminate; [cbn; tauto|].
    cbn [moves combine forallb filter]. change (changing (x, l, (x', l'))) with (over l). unfold fixed_ok at 1. cbn [fst snd].
    assert (Hl' : length c = length c') by (cbn in Hl; lia). destruct (over l) eqn:Eo; cbn [map picks].
    - rewrite (IH c' u v (S r) Hl'). change (pick_state (x, l, (x', l'))) with (row x, x'). change (pick_time (x, l, (x', l'))) with (drow x x', Z.to_nat (l' + 1)).
      cbn [picks]. rewrite andb_true_iff, Z.leb_le. split.
      + intros (H1 & (e & H2 & ->) & H3 & H4 & H5). replace (Z.to_nat (Z.of_nat e - 1 + 1)) with e by lia.
        split; [split; [lia|exact H3]|]. split; split; assumption.
      + intros ((H1 & H2) & (H3 & H4) & (H5 & H6)). split; [exact H3|]. split; [exists (Z.to_nat (l' + 1)); split; [exact H5|lia]|]. auto.
    - rewrite (IH c' u v r Hl'). rewrite !andb_true_iff, Nat.eqb_eq, Z.eqb_eq. tauto.
  Qed.

  Lemma moves_fun : forall c c1 c2 u v r, (forall x l, In (x, l) c -> nonneg (row x)) ->
    (forall x l x', In (x, l) c -> (x' < length (row x))%nat -> nonneg (drow x x')) ->
    moves c c1 u v r -> moves c c2 u v r -> c1 = c2.
  Proof.
    induction c as [|[x l] c IH]; intros [|[x1 l1] c1] [|[x2 l2] c2] u v r Hr Hd H1 H2; cbn [moves] in *; try (destruct H1; fail); try (destruct H2; fail); [reflexivity|].
    assert (Hr' : forall x l, In (x, l) c -> nonneg (row x)) by (intros; eapply Hr; right; eassumption).
    assert (Hd' : forall x l x', In (x, l) c -> (x' < length (row x))%nat -> nonneg (drow x x')) by (intros; eapply Hd; [right; eassumption|assumption]).
    destruct (over l).
    - destruct H1 as (A1 & (e1 & A2 & ->) & A3). destruct H2 as (B1 & (e2 & B2 & ->) & B3).
      assert (x1 = x2) by (eapply selects_fun; [apply (Hr x l); left; reflexivity| |]; eassumption). subst x2.
      assert (e1 = e2) by (eapply selects_fun; [apply (Hd x l x1); [left; reflexivity|apply A1]| |]; eassumption). subst e2.
      f_equal. eapply IH; eassumption.
    - destruct H1 as (-> & -> & A3). destruct H2 as (-> & -> & B3). f_equal. eapply IH; eassumption.
  Qed.

  Lemma moves_ext : forall c c' u v u' v' r, (forall k, (r <= k < r + length c)%nat -> u k = u' k /\ v k = v' k) ->
    moves c c' u v r -> moves c c' u' v' r.
  Proof.
    induction c as [|[x l] c IH]; intros [|[x' l'] c'] u v u' v' r H; cbn [moves]; auto.
    destruct (over l).
    - destruct (H r) as [<- <-]; [cbn; lia|]. intros (A & B & C). split; [exact A|]. split; [exact B|].
      eapply IH; [|exact C]. intros k Hk. apply H. cbn. lia.
    - intros (A & B & C). split; [exact A|]. split; [exact B|]. eapply IH; [|exact C]. intros k Hk. apply H. cbn. lia.
  Qed.

  Definition move_prob (ab : (nat * Z) * (nat * Z)) : Q :=
    if over (snd (fst ab))
    then entry (row (fst (fst ab))) (fst (snd ab)) * by_timer (entry (drow (fst (fst ab)) (fst (snd ab)))) (snd (snd ab))
    else if ((fst (snd ab) =? fst (fst ab))%nat && (snd (snd ab) =? snd (fst ab) - 1)%Z)%bool then 1 else 0.

  Lemma move_product : forall abs, product (map move_prob abs) ==
    if forallb fixed_ok abs
    then product (map (fun rj => entry (fst rj) (snd rj)) (map pick_state (filter changing abs))) *
         product (map (fun rj => entry (fst rj) (snd rj)) (map pick_time (filter changing abs)))
    else 0.
  Proof.
    induction abs as [|ab abs IH]; [cbn; ring|]. cbn [map product forallb filter]. rewrite IH. clear IH.
    change (changing ab) with (over (snd (fst ab))). generalize (forallb fixed_ok abs) as F. intros F. unfold move_prob, fixed_ok. destruct (over (snd (fst ab))) eqn:Eo.
    - unfold by_timer. destruct (Z.ltb_spec (snd (snd ab) + 1) 0) as [H|H].
      + destruct (Z.leb_spec 0 (snd (snd ab) + 1)); [lia|]. cbn [andb]. ring.
      + destruct (Z.leb_spec 0 (snd (snd ab) + 1)); [|lia]. cbn [andb map product]. cbn [pick_state pick_time fst snd].
        destruct F; ring.
    - destruct ((fst (snd ab) =? fst (fst ab))%nat && (snd (snd ab) =? snd (fst ab) - 1)%Z)%bool; cbn [andb]; [|ring].
      destruct F; ring.
  Qed.

  Lemma prob_moves : forall n c c', length c = n -> length c' = n ->
    (forall x l, In (x, l) c -> is_pdf (row x)) -> (forall x l x' l', In (x, l) c -> In (x', l') c' -> is_pdf (drow x x')) ->
    has_probability (n + n) (fun us => moves c c' (fun k => nth k (firstn n us) 0) (fun k => nth k (skipn n us) 0) 0)
      (product (map move_prob (combine c c'))).
  Proof.
    intros n c c' Hc Hc' Hr Hd. assert (L : length c = length c') by lia.
    assert (LF : (length (filter changing (combine c c')) <= n)%nat).
    { assert (K := filter_length_le _ changing (combine c c')). rewrite combine_length in K. lia. }
    destruct (forallb fixed_ok (combine c c')) eqn:E.
    - eapply prob_ext.
      + apply prob_both.
        * apply (prob_picks (map pick_state (filter changing (combine c c'))) n); [rewrite map_length; exact LF|].
          intros rw j H. apply in_map_iff in H as ([[x l] [x' l']] & H1 & H2). apply filter_In in H2 as [H2 _]. injection H1 as <- <-.
          apply in_combine_l in H2. apply (Hr x l H2).
        * apply (prob_picks (map pick_time (filter changing (combine c c'))) n); [rewrite map_length; exact LF|].
          intros rw j H. apply in_map_iff in H as ([[x l] [x' l']] & H1 & H2). apply filter_In in H2 as [H2 _]. injection H1 as <- <-.
          apply (Hd x l x' l'); [eapply in_combine_l|eapply in_combine_r]; exact H2.
      + intros us _. cbv beta. rewrite (moves_iff c c' _ _ 0 L), E. tauto.
      + rewrite move_product, E. reflexivity.
    - eapply prob_ext; [apply (prob_never (n + n) (fun us => moves c c' (fun k => nth k (firstn n us) 0) (fun k => nth k (skipn n us) 0) 0))|reflexivity|].
      + intros us _ H. apply (moves_iff c c' _ _ 0 L) in H as [H _]. congruence.
      + rewrite move_product, E. reflexivity.
  Qed.
End Move.

(** ** The simulator *)

Set Implicit Arguments.

Section Semi.
  Variable L : Type.

  Definition pairs (s : semi L) : list (nat * Z) := combine (c_states (s_chain s)) (s_left s).

  Definition state_row (tpms : list (list (list Q))) (t x : nat) : list Q := nth x (nth (t mod length tpms) tpms []) [].
  Definition time_row (d : dur_tables) (t x x' : nat) : list Q :=
    match d with
    | ByNew l => nth x' (nth (t mod dur_length d) l []) []
    | ByOldNew l => nth x' (nth x (nth (t mod dur_length d) l []) []) []
    end.

  Lemma at_nth_d : forall A (l : list A) i x d, at_ l i x -> nth i l d = x.
  Proof. intros A l i x d H. apply nth_error_nth. exact H. Qed.

  Lemma pairs_at : forall s i x l, length (s_left s) = length (c_states (s_chain s)) ->
    (at_ (pairs s) i (x, l) <-> at_ (c_states (s_chain s)) i x /\ at_ (s_left s) i l).
  Proof.
    intros s i x l Hl. unfold pairs, at_. revert Hl i. generalize (s_left s) as b. induction (c_states (s_chain s)) as [|y a IH]; intros [|z b] Hl i; try discriminate.
    - destruct i; cbn; split; [discriminate|intros [H _]; discriminate|discriminate|intros [H _]; discriminate].
    - destruct i as [|i]; cbn [combine nth_error].
      + split; [intros H; injection H as <- <-; auto|intros [H1 H2]; congruence].
      + apply IH. cbn in Hl. lia.
  Qed.

  (** From what [semi_step_ok] says of each household to [moves]. *)
  Lemma moves_of_each : forall row drow c c' u v r, length c = length c' ->
    (forall i x l, at_ c i (x, l) ->
      (over l = false -> at_ c' i (x, (l - 1)%Z)) /\
      (over l = true -> exists x' e, selects (row x) (u (r + rank over (map snd c) i)%nat) x' /\
         selects (drow x x') (v (r + rank over (map snd c) i)%nat) e /\ at_ c' i (x', (Z.of_nat e - 1)%Z))) ->
    moves row drow c c' u v r.
  Proof.
    intros row drow. induction c as [|[x l] c IH]; intros [|[x' l'] c'] u v r Hl H; try discriminate; [exact I|].
    assert (Hl' : length c = length c') by (cbn in Hl; lia). cbn [moves]. destruct (H O x l eq_refl) as [H1 H2].
    unfold at_ in H1, H2. cbn [nth_error] in H1, H2. destruct (over l) eqn:Eo.
    - destruct (H2 eq_refl) as (y & e & A1 & A2 & A3). injection A3 as E1 E2. subst y.
      unfold rank in A1, A2. cbn [firstn filter length] in A1, A2. rewrite Nat.add_0_r in A1, A2.
      split; [exact A1|]. split; [exists e; auto|]. apply IH; [exact Hl'|]. intros i y m Hi. destruct (H (S i) y m Hi) as [B1 B2].
      unfold rank in B2. cbn [map snd firstn filter] in B2. rewrite Eo in B2. cbn [length] in B2. rewrite Nat.add_succ_r in B2.
      split; [exact B1|exact B2].
    - assert (K := H1 eq_refl). injection K as -> ->. split; [reflexivity|]. split; [reflexivity|]. apply IH; [exact Hl'|].
      intros i y m Hi. destruct (H (S i) y m Hi) as [B1 B2].
      unfold rank in B2. cbn [map snd firstn filter] in B2. rewrite Eo in B2. split; [exact B1|exact B2].
  Qed.

  Lemma map_snd_combine : forall A B (a : list A) (b : list B), length b = length a -> map snd (combine a b) = b.
  Proof. induction a as [|x a IH]; intros [|y b] H; try discriminate; [reflexivity|]. cbn [combine map snd]. rewrite IH; [reflexivity|]. cbn in H. lia. Qed.

  Lemma state_row_at : forall tpms t x row, row_at tpms (t mod length tpms) x row -> state_row tpms t x = row.
  Proof. intros tpms t x row (m & H1 & H2). unfold state_row. rewrite (at_nth_d _ H1). apply at_nth_d. exact H2. Qed.

  Lemma time_row_at : forall d t x x' row, dur_row d (t mod dur_length d) x x' row -> time_row d t x x' = row.
  Proof.
    intros d t x x' row H. unfold time_row. destruct d as [ll|ll]; cbn [dur_row] in H.
    - destruct H as (m & H1 & H2). rewrite (at_nth_d _ H1). apply at_nth_d. exact H2.
    - destruct H as (m' & (m & H1 & H2) & H3). rewrite (at_nth_d _ H1), (at_nth_d _ H2). apply at_nth_d. exact H3.
  Qed.

  Lemma step_moves : forall tpms d n k s u v, tpms <> [] -> (forall t m, at_ tpms t m -> stochastic n m) ->
    dur_valid n (tables_of d) -> unit_draws u -> unit_draws v -> semi_ok tpms d n k s ->
    exists s', semi_step s (u, v) = Ok s' /\ semi_ok tpms d n (S k) s' /\ length (s_left s') = length (s_left s) /\
      moves (state_row tpms k) (time_row (tables_of d) k) (pairs s) (pairs s') u v 0.
  Proof.
    intros tpms d n k s u v Hne Hst Hd Hu Hv Hs. destruct (semi_step_ok Hne Hst Hd Hu Hv Hs) as (s' & H1 & H2 & H3 & _ & H4).
    exists s'. split; [exact H1|]. split; [exact H2|]. split; [exact H3|].
    assert (E := proj2 (proj2 Hs)). assert (E' := proj2 (proj2 H2)).
    apply moves_of_each.
    - unfold pairs. rewrite !combine_length. lia.
    - intros i x l Hi. apply pairs_at in Hi as [Hx Hl]; [|exact E]. assert (ES : map snd (pairs s) = s_left s) by (apply map_snd_combine; exact E). rewrite ES. cbn [Nat.add].
      destruct (H4 i x l Hx Hl) as [A B]. split.
      + intros Ho. destruct (A Ho) as [A1 A2]. apply pairs_at; [exact E'|split; assumption].
      + intros Ho. destruct (B Ho) as (row & x' & drow & e & B1 & B2 & B3 & B4 & B5 & B6).
        exists x', e. assert (F1 := state_row_at _ B1). assert (F2 := @time_row_at _ _ _ _ _ B3). rewrite F1, F2. split; [exact B2|]. split; [exact B4|].
        apply pairs_at; [exact E'|split; assumption].
  Qed.

  Fixpoint semi_moves (tpms : list (list (list Q))) (d : dur_tables) (t : nat) (c : list (nat * Z)) (rest : list (list (nat * Z)))
      (hist : list ((nat -> Q) * (nat -> Q))) : Prop :=
    match rest, hist with
    | [], [] => True
    | c' :: r, uv :: h => moves (state_row tpms t) (time_row d t) c c' (fst uv) (snd uv) 0 /\ semi_moves tpms d (S t) c' r h
    | _, _ => False
    end.

  Definition all_units (hist : list ((nat -> Q) * (nat -> Q))) : Prop := forall k uv, at_ hist k uv -> unit_draws (fst uv) /\ unit_draws (snd uv).

  (** The pairs after each step of [hist] are those of [rest]. *)
  Definition semi_visits (s : semi L) (hist : list ((nat -> Q) * (nat -> Q))) (rest : list (list (nat * Z))) : Prop :=
    forall k c, at_ rest k c -> exists sk, semi_run (firstn (S k) hist) s = Ok sk /\ pairs sk = c.

  Lemma nth_at_lt : forall A (l : list A) i d, (i < length l)%nat -> at_ l i (nth i l d).
  Proof. intros A l i d H. unfold at_. apply nth_error_nth'. exact H. Qed.

  Section Tables.
    Variables (tpms : list (list (list Q))) (d : dur_pdfs) (n_st : nat).
    Hypothesis Hne : tpms <> [].
    Hypothesis Hst : forall t m, at_ tpms t m -> stochastic n_st m.
    Hypothesis Hd : dur_valid n_st (tables_of d).

    Lemma state_row_pdf : forall t x, (x < n_st)%nat -> length (state_row tpms t x) = n_st /\ is_pdf (state_row tpms t x).
    Proof.
      intros t x Hx. assert (Ht : (t mod length tpms < length tpms)%nat) by (apply Nat.mod_upper_bound; destruct tpms; [congruence|discriminate]).
      destruct (Hst (nth_at_lt tpms [] Ht)) as [Hm Hr]. apply (Hr x). unfold state_row. apply nth_at_lt. rewrite Hm. exact Hx.
    Qed.

    Lemma time_row_pdf : forall t x x', (x < n_st)%nat -> (x' < n_st)%nat -> is_pdf (time_row (tables_of d) t x x').
    Proof.
      intros t x x' Hx Hx'. destruct Hd as [Hn Hr]. unfold time_row.
      assert (Ht : (t mod dur_length (tables_of d) < dur_length (tables_of d))%nat) by (apply Nat.mod_upper_bound; lia).
      destruct (tables_of d) as [l|l]; cbn [dur_length] in *.
      - destruct (Hr _ _ (nth_at_lt l [] Ht)) as [Hm Hp]. apply (Hp x'). apply nth_at_lt. rewrite Hm. exact Hx'.
      - destruct (Hr _ _ (nth_at_lt l [] Ht)) as [Hm Hp].
        assert (K : (x < length (nth (t mod length l) l []))%nat) by (rewrite Hm; exact Hx).
        destruct (Hp _ _ (nth_at_lt _ [] K)) as [Hm' Hp']. apply (Hp' x'). apply nth_at_lt. rewrite Hm'. exact Hx'.
    Qed.

    Lemma pairs_lt : forall k s x l, semi_ok tpms d n_st k s -> In (x, l) (pairs s) -> (x < n_st)%nat.
    Proof. intros k s x l ((_ & _ & H) & _ & _) Hin. apply in_combine_l in Hin. apply in_at in Hin as [i Hi]. eapply H; exact Hi. Qed.

    Lemma semi_fun : forall k s c1 c2 u v, semi_ok tpms d n_st k s ->
      moves (state_row tpms k) (time_row (tables_of d) k) (pairs s) c1 u v 0 ->
      moves (state_row tpms k) (time_row (tables_of d) k) (pairs s) c2 u v 0 -> c1 = c2.
    Proof.
      intros k s c1 c2 u v Hs. apply moves_fun.
      - intros x l Hx. apply state_row_pdf. eapply pairs_lt; eassumption.
      - intros x l x' Hx Hx'. assert (Hlt : (x < n_st)%nat) by (eapply pairs_lt; eassumption).
        apply time_row_pdf; [exact Hlt|]. destruct (state_row_pdf k Hlt) as [E _]. rewrite E in Hx'. exact Hx'.
    Qed.

    Lemma visits_iff : forall rest hist k s, semi_ok tpms d n_st k s -> all_units hist -> length rest = length hist ->
      (semi_visits s hist rest <-> semi_moves tpms (tables_of d) k (pairs s) rest hist).
    Proof.
      induction rest as [|c' rest IH]; intros [|[u v] hist] k s Hs Hu Hl; try discriminate.
      - split; [intros _; exact I|intros _ j c Hj; destruct j; discriminate].
      - destruct (Hu O (u, v) eq_refl) as [U V]. cbn [fst snd] in U, V.
        assert (Hu' : all_units hist) by (intros j uv Hj; exact (Hu (S j) uv Hj)).
        destruct (step_moves Hne Hst Hd U V Hs) as (s1 & E1 & Hs1 & _ & M1).
        assert (Hl' : length rest = length hist) by (cbn in Hl; lia). specialize (IH hist (S k) s1 Hs1 Hu' Hl').
        cbn [semi_moves fst snd]. split.
        + intros H. destruct (H O c' eq_refl) as (sk & R & P). cbn [firstn semi_run] in R. rewrite E1 in R. injection R as <-.
          rewrite <- P. split; [exact M1|]. apply IH. intros j c Hj. destruct (H (S j) c Hj) as (sk & R & P').
          cbn [firstn semi_run] in R. rewrite E1 in R. exists sk. split; [exact R|exact P'].
        + intros [H1 H2]. assert (E : pairs s1 = c') by (exact (@semi_fun _ _ _ _ _ _ Hs M1 H1)). rewrite <- E in H2. apply IH in H2.
          intros [|j] c Hj.
          * injection Hj as <-. exists s1. cbn [firstn semi_run]. rewrite E1. split; [reflexivity|exact E].
          * destruct (H2 j c Hj) as (sk & R & P). exists sk. cbn [firstn semi_run]. rewrite E1. split; [exact R|exact P].
    Qed.

    Definition two (n : nat) (us : list Q) (k : nat) : (nat -> Q) * (nat -> Q) :=
      (fun i => nth i (firstn n (piece (n + n) k us)) 0, fun i => nth i (skipn n (piece (n + n) k us)) 0).

    Lemma move_prob_spec : forall t ab, move_prob (state_row tpms t) (time_row (tables_of d) t) ab = semi_move tpms (tables_of d) t (fst ab) (snd ab).
    Proof. intros t [[x l] [x' l']]. unfold move_prob, semi_move, time_row, dur_entry. destruct (tables_of d); reflexivity. Qed.

    Lemma prob_semi_moves : forall n rest t c, length c = n -> (forall k c', at_ rest k c' -> length c' = n) ->
      (forall x l, In (x, l) c -> (x < n_st)%nat) -> (forall k c' x l, at_ rest k c' -> In (x, l) c' -> (x < n_st)%nat) ->
      has_probability (length rest * (n + n)) (fun us => semi_moves tpms (tables_of d) t c rest (map (two n us) (seq 0 (length rest))))
        (semi_path tpms (tables_of d) t c rest).
    Proof.
      intros n. induction rest as [|c' rest IH]; intros t c Hc Hr Hx Hrx.
      - apply prob_always. intros us _. exact I.
      - cbn [length]. change (S (length rest) * (n + n))%nat with ((n + n) + length rest * (n + n))%nat. cbn [semi_path].
        eapply prob_ext.
        + apply prob_both.
          * apply (@prob_moves (state_row tpms t) (time_row (tables_of d) t) n c c' Hc (Hr O c' eq_refl)).
            -- intros x l H. apply state_row_pdf. eapply Hx; eassumption.
            -- intros x l x' l' H H'. apply time_row_pdf; [eapply Hx; eassumption|eapply (Hrx O c'); [reflexivity|eassumption]].
          * apply (IH (S t) c' (Hr O c' eq_refl)).
            -- intros k c2 H. exact (Hr (S k) c2 H).
            -- intros x l H. exact (Hrx O c' x l eq_refl H).
            -- intros k c2 x l H. exact (Hrx (S k) c2 x l H).
        + intros us [Hlen _]. cbv beta. cbn [seq map semi_moves]. rewrite <- seq_shift, map_map.
          assert (E : map (fun x => two n us (S x)) (seq 0 (length rest)) = map (two n (skipn (n + n) us)) (seq 0 (length rest))).
          { apply map_ext. intros k. unfold two. rewrite piece_S. reflexivity. }
          rewrite E. unfold two at 2 3. cbn [fst snd]. rewrite piece_0. reflexivity.
        + apply Qmult_comp; [|reflexivity]. f_equal. erewrite map_ext; [reflexivity|]. intros ab. apply move_prob_spec.
    Qed.

    (** ** Whole runs *)

    Variables (n_hh : nat) (labels : list L) (c0 : chain0 L) (pdf : list Q) (sdurs : list (list Q)) (check : bool).
    Hypothesis Hl : length pdf = n_st.
    Hypothesis Hpdf : is_pdf pdf.
    Hypothesis Hsl : length sdurs = n_st.
    Hypothesis Hsd : forall x row, at_ sdurs x row -> is_pdf row.
    Hypothesis Hinit : chain_init n_hh n_st tpms labels = Ok c0.

    Definition blank : list (nat * Z) := repeat (0%nat, 0%Z) n_hh.
    Definition begins (c : list (nat * Z)) (u v : nat -> Q) : Prop := moves (fun _ => pdf) (fun _ x' => nth x' sdurs []) blank c u v 0.

    Lemma rank_blank : forall m i, (i <= m)%nat -> rank over (map snd (repeat (0%nat, 0%Z) m)) i = i.
    Proof.
      unfold rank. induction m as [|m IH]; intros [|i] Hi; try reflexivity; [lia|].
      cbn [repeat map snd firstn filter]. change (over 0) with true. cbn [length]. f_equal. apply IH. lia.
    Qed.

    Lemma start_begins : forall u v, unit_draws u -> unit_draws v ->
      exists s, semi_start c0 d pdf sdurs 0 check u v = Ok s /\ semi_ok tpms d n_st 1 s /\ begins (pairs s) u v.
    Proof.
      intros u v Hu Hv. destruct (@semi_start_ok L n_hh n_st tpms labels c0 d pdf sdurs check u v Hne Hst Hl Hpdf Hd Hsl Hsd Hu Hv Hinit) as (s & E & Hs & Hlen & H).
      exists s. split; [exact E|]. split; [exact Hs|]. assert (E' := proj2 (proj2 Hs)).
      assert (Lp : length (pairs s) = n_hh) by (unfold pairs; rewrite combine_length; lia).
      apply moves_of_each; [unfold blank; rewrite repeat_length; lia|].
      intros i x l Hi. assert (Hin : (i < n_hh)%nat).
      { assert (K : nth_error blank i <> None) by (unfold at_ in Hi; congruence). apply nth_error_Some in K. unfold blank in K. rewrite repeat_length in K. exact K. }
      assert (Hi' := nth_error_In _ _ Hi). apply repeat_spec in Hi'. injection Hi' as -> ->.
      unfold blank. rewrite rank_blank by lia. cbn [Nat.add]. split; [discriminate|]. intros _.
      assert (Hx : exists x, at_ (c_states (s_chain s)) i x).
      { exists (nth i (c_states (s_chain s)) 0%nat). apply nth_at_lt. lia. }
      destruct Hx as [x Hx]. destruct (H i x Hx) as (H1 & row & e & H2 & H3 & H4).
      exists x, e. rewrite (at_nth_d _ H2). split; [exact H1|]. split; [exact H3|]. apply pairs_at; [exact E'|]. split; assumption.
    Qed.

    Lemma begins_fun : forall c1 c2 u v, begins c1 u v -> begins c2 u v -> c1 = c2.
    Proof.
      intros c1 c2 u v. apply moves_fun.
      - intros x l _. apply Hpdf.
      - intros x l x' _ Hx'. rewrite Hl in Hx'. rewrite <- Hsl in Hx'. exact (proj1 (Hsd (nth_at_lt sdurs [] Hx'))).
    Qed.

    (** The run starts with the pairs [c] and goes through those of [rest]. *)
    Definition semi_trace (u v : nat -> Q) (hist : list ((nat -> Q) * (nat -> Q))) (c : list (nat * Z)) (rest : list (list (nat * Z))) : Prop :=
      exists s, semi_start c0 d pdf sdurs 0 check u v = Ok s /\ pairs s = c /\ semi_visits s hist rest.

    Lemma trace_iff : forall u v hist c rest, unit_draws u -> unit_draws v -> all_units hist -> length rest = length hist ->
      (semi_trace u v hist c rest <-> begins c u v /\ semi_moves tpms (tables_of d) 1 c rest hist).
    Proof.
      intros u v hist c rest Hu Hv Hh Hlen. destruct (start_begins Hu Hv) as (s & E & Hs & B). split.
      - intros (s' & E' & <- & H). rewrite E in E'. injection E' as <-. split; [exact B|]. apply visits_iff; assumption.
      - intros [H1 H2]. assert (K : pairs s = c) by (eapply begins_fun; eassumption). exists s. split; [exact E|]. split; [exact K|].
        apply (visits_iff rest Hs Hh Hlen). rewrite K. exact H2.
    Qed.

    Lemma begin_product : forall c, length c = n_hh ->
      map (move_prob (fun _ => pdf) (fun _ x' => nth x' sdurs [])) (combine blank c) = map (semi_begin pdf sdurs) c.
    Proof.
      unfold blank. intros c Hc. rewrite <- Hc. clear Hc. induction c as [|b c IH]; [reflexivity|]. cbn [length repeat combine map]. f_equal. apply IH.
    Qed.

    (** The draws of a step: those of the states of all households, then those of
        their durations. *)
    Definition step_draws (u v : nat -> Q) : list Q := map u (seq 0 n_hh) ++ map v (seq 0 n_hh).

    Lemma step_draws_nth : forall u v p k, step_draws u v = p -> (k < n_hh)%nat ->
      u k = nth k (firstn n_hh p) 0 /\ v k = nth k (skipn n_hh p) 0.
    Proof.
      intros u v p k <- Hk. unfold step_draws.
      assert (E : length (map u (seq 0 n_hh)) = n_hh) by (rewrite map_length, seq_length; reflexivity).
      assert (F : firstn n_hh (map u (seq 0 n_hh) ++ map v (seq 0 n_hh)) = map u (seq 0 n_hh)).
      { rewrite firstn_app, E, Nat.sub_diag, firstn_O, app_nil_r. apply firstn_all2. lia. }
      assert (G : skipn n_hh (map u (seq 0 n_hh) ++ map v (seq 0 n_hh)) = map v (seq 0 n_hh)).
      { rewrite skipn_app, E, Nat.sub_diag, skipn_O. rewrite skipn_all2 by lia. reflexivity. }
      rewrite F, G. split.
      - rewrite (nth_indep _ 0 (u 0%nat)) by lia. rewrite map_nth, seq_nth by lia. reflexivity.
      - rewrite (nth_indep _ 0 (v 0%nat)) by (rewrite map_length, seq_length; lia). rewrite map_nth, seq_nth by lia. reflexivity.
    Qed.

    Lemma nth_draws : forall p n k, Forall (fun u => 0 <= u /\ u < 1) p -> unit_draws (fun i => nth i (firstn n p) 0) /\ unit_draws (fun i => nth i (skipn k p) 0).
    Proof.
      assert (K : forall l i, Forall (fun u => 0 <= u /\ u < 1) l -> 0 <= nth i l 0 /\ nth i l 0 < 1).
      { intros l i H. destruct (nth_in_or_default i l 0) as [Hin| ->]; [rewrite Forall_forall in H; auto|lra]. }
      intros p n k H. rewrite Forall_forall in H. split; intros i; apply K; apply Forall_forall; intros x Hx; apply H.
      - rewrite <- (firstn_skipn n p). apply in_or_app. left. exact Hx.
      - rewrite <- (firstn_skipn k p). apply in_or_app. right. exact Hx.
    Qed.

    Lemma step_draws_two : forall p, length p = (n_hh + n_hh)%nat -> step_draws (fun i => nth i (firstn n_hh p) 0) (fun i => nth i (skipn n_hh p) 0) = p.
    Proof.
      intros p Hp. unfold step_draws. transitivity (firstn n_hh p ++ skipn n_hh p); [|apply firstn_skipn]. f_equal.
      - assert (E : length (firstn n_hh p) = n_hh) by (rewrite firstn_length; lia).
        assert (M := map_nth_seq (firstn n_hh p) 0). rewrite E in M. exact M.
      - assert (E : length (skipn n_hh p) = n_hh) by (rewrite skipn_length; lia).
        assert (M := map_nth_seq (skipn n_hh p) 0). rewrite E in M. exact M.
    Qed.

    Lemma semi_moves_ext : forall rest hist hist' t c, length c = n_hh -> (forall k c', at_ rest k c' -> length c' = n_hh) -> length hist = length hist' ->
      (forall k uv uv', at_ hist k uv -> at_ hist' k uv' -> forall i, (i < n_hh)%nat -> fst uv i = fst uv' i /\ snd uv i = snd uv' i) ->
      semi_moves tpms (tables_of d) t c rest hist -> semi_moves tpms (tables_of d) t c rest hist'.
    Proof.
      induction rest as [|c' rest IH]; intros [|uv hist] [|uv' hist'] t c Hc Hr Hlen H; try discriminate; cbn [semi_moves]; auto.
      intros [H1 H2]. split.
      - eapply moves_ext; [|exact H1]. intros k Hk. apply (H O uv uv' eq_refl eq_refl). rewrite Hc in Hk. apply Hk.
      - apply (IH hist hist'); [exact (Hr O c' eq_refl)|intros k c2 K; exact (Hr (S k) c2 K)|cbn in Hlen; lia| |exact H2].
        intros k a b Ha Hb. exact (H (S k) a b Ha Hb).
    Qed.

    Lemma semi_joint : forall c rest, length c = n_hh -> (forall k c', at_ rest k c' -> length c' = n_hh) ->
      (forall x l, In (x, l) c -> (x < n_st)%nat) -> (forall k c' x l, at_ rest k c' -> In (x, l) c' -> (x < n_st)%nat) ->
      has_probability (S (length rest) * (n_hh + n_hh)) (fun us => forall u v hist,
          unit_draws u -> unit_draws v -> all_units hist -> length hist = length rest ->
          step_draws u v = piece (n_hh + n_hh) 0 us ->
          (forall k uv, at_ hist k uv -> step_draws (fst uv) (snd uv) = piece (n_hh + n_hh) (S k) us) ->
          semi_trace u v hist c rest)
        (product (map (semi_begin pdf sdurs) c) * semi_path tpms (tables_of d) 1 c rest).
    Proof.
      intros c rest Hc Hr Hx Hrx. change (S (length rest) * (n_hh + n_hh))%nat with ((n_hh + n_hh) + length rest * (n_hh + n_hh))%nat.
      eapply prob_ext.
      - apply prob_both.
        + apply (@prob_moves (fun _ => pdf) (fun _ x' => nth x' sdurs []) n_hh blank c); [apply repeat_length|exact Hc|intros; exact Hpdf|].
          intros x l x' l' _ H'. assert (K := Hx _ _ H'). rewrite <- Hsl in K. exact (Hsd (nth_at_lt sdurs [] K)).
        + apply (@prob_semi_moves n_hh rest 1 c Hc Hr Hx Hrx).
      - intros us Hus.
        assert (EQ : map (two n_hh (skipn (n_hh + n_hh) us)) (seq 0 (length rest)) = map (fun k => two n_hh us (S k)) (seq 0 (length rest))).
        { apply map_ext. intros k. unfold two. rewrite piece_S. reflexivity. }
        cbv beta. rewrite EQ. rewrite <- (piece_0 (n_hh + n_hh) us). split.
        + intros [B M] u v hist Hu Hv Hh Hlen D0 Dk. apply trace_iff; [exact Hu|exact Hv|exact Hh|congruence|]. split.
          * unfold begins. eapply moves_ext; [|exact B]. intros k Hk. cbv beta. unfold blank in Hk. rewrite repeat_length in Hk.
            destruct (step_draws_nth _ _ D0 (k := k)) as [-> ->]; [lia|]. auto.
          * eapply semi_moves_ext; [exact Hc|exact Hr| | |exact M]; [rewrite map_length, seq_length; congruence|].
            intros k uv uv' Ha Hb i Hi. assert (E := Dk k uv' Hb). destruct (step_draws_nth _ _ E Hi) as [-> ->].
            unfold at_ in Ha. rewrite nth_error_map in Ha.
            destruct (nth_error (seq 0 (length rest)) k) as [k'|] eqn:Ek; [|discriminate]. injection Ha as <-.
            assert (Kl : (k < length rest)%nat). { assert (Q : nth_error (seq 0 (length rest)) k <> None) by congruence. apply nth_error_Some in Q. rewrite seq_length in Q. exact Q. }
            rewrite (nth_error_nth' _ 0%nat) in Ek by (rewrite seq_length; exact Kl). rewrite seq_nth in Ek by exact Kl. injection Ek as <-.
            split; reflexivity.
        + intros H.
          assert (P : forall k, (k < S (length rest))%nat -> draws (n_hh + n_hh) (piece (n_hh + n_hh) k us)) by (intros k Hk; apply (draws_piece _ (S (length rest))); [exact Hus|exact Hk]).
          assert (Hh : all_units (map (fun k => two n_hh us (S k)) (seq 0 (length rest)))).
          { intros k uv Hk. apply nth_error_In, in_map_iff in Hk as (k' & <- & Hk'). apply in_seq in Hk'. apply nth_draws. apply P. lia. }
          specialize (H (fst (two n_hh us 0)) (snd (two n_hh us 0)) (map (fun k => two n_hh us (S k)) (seq 0 (length rest)))).
          apply trace_iff in H; [exact H|..].
          * apply (nth_draws n_hh n_hh). apply P. lia.
          * apply (nth_draws n_hh n_hh). apply P. lia.
          * exact Hh.
          * rewrite map_length, seq_length. reflexivity.
          * apply (nth_draws n_hh n_hh). apply P. lia.
          * apply (nth_draws n_hh n_hh). apply P. lia.
          * exact Hh.
          * rewrite map_length, seq_length. reflexivity.
          * apply step_draws_two. apply P. lia.
          * intros k uv Hk. unfold at_ in Hk. rewrite nth_error_map in Hk.
            destruct (nth_error (seq 0 (length rest)) k) as [k'|] eqn:Ek; [|discriminate]. injection Hk as <-.
            assert (Kl : (k < length rest)%nat). { assert (Q : nth_error (seq 0 (length rest)) k <> None) by congruence. apply nth_error_Some in Q. rewrite seq_length in Q. exact Q. }
            rewrite (nth_error_nth' _ 0%nat) in Ek by (rewrite seq_length; exact Kl). rewrite seq_nth in Ek by exact Kl. injection Ek as <-.
            apply step_draws_two. apply P. lia.
      - rewrite begin_product by exact Hc. reflexivity.
    Qed.
  End Tables.
End Semi.

(** ** Episodes of one household *)

Section Episodes.
  Variables (tables : list (list (list Q))) (d : dur_tables).

  Lemma countdown : forall m t x rest,
    semi_path tables d t [(x, Z.of_nat m)] (map (fun p => [p]) (map (fun k => (x, Z.of_nat m - 1 - Z.of_nat k)%Z) (seq 0 m) ++ rest)) ==
    semi_path tables d (t + m) [(x, 0%Z)] (map (fun p => [p]) rest).
  Proof.
    induction m as [|m IH]; intros t x rest; [rewrite Nat.add_0_r; reflexivity|].
    cbn [seq map List.app semi_path]. rewrite <- seq_shift, map_map.
    replace (Z.of_nat (S m) - 1 - Z.of_nat 0)%Z with (Z.of_nat m) by lia.
    assert (E : map (fun k => (x, Z.of_nat (S m) - 1 - Z.of_nat (S k))%Z) (seq 0 m) = map (fun k => (x, Z.of_nat m - 1 - Z.of_nat k)%Z) (seq 0 m)).
    { apply map_ext. intros k. apply (f_equal (pair x)). lia. }
    rewrite E, (IH (S t) x rest), Nat.add_succ_r. cbn [Nat.add combine map product fst snd]. unfold semi_move. cbn [fst snd].
    assert (Z.of_nat (S m) <? 1 = false)%Z as -> by (apply Z.ltb_ge; lia). rewrite Nat.eqb_refl.
    assert (Z.of_nat m =? Z.of_nat (S m) - 1 = true)%Z as -> by (apply Z.eqb_eq; lia). cbn [andb]. ring.
  Qed.

  Lemma episode_over : forall t x l l' rest, (l < 1)%Z -> (l' < 1)%Z ->
    semi_path tables d t [(x, l)] (map (fun p => [p]) rest) = semi_path tables d t [(x, l')] (map (fun p => [p]) rest).
  Proof.
    intros t x l l' [|p rest] H H'; [reflexivity|]. cbn [map semi_path combine fst snd]. f_equal. f_equal. f_equal.
    unfold semi_move. cbn [fst snd]. assert (l <? 1 = true)%Z as -> by (apply Z.ltb_lt; lia). assert (l' <? 1 = true)%Z as -> by (apply Z.ltb_lt; lia). reflexivity.
  Qed.

  Lemma episode_goes_on : forall t x e rest,
    semi_path tables d (S t) [(x, Z.of_nat e - 1)%Z] (map (fun p => [p]) (episode_tail x e ++ rest)) ==
    semi_path tables d (t + Nat.max 1 e) [(x, 0%Z)] (map (fun p => [p]) rest).
  Proof.
    intros t x [|e] rest.
    - cbn [Nat.max]. unfold episode_tail. cbn [Nat.sub seq map List.app]. rewrite Nat.add_1_r.
      rewrite (episode_over (S t) x (l := (Z.of_nat 0 - 1)%Z) (l' := 0%Z)) by lia. reflexivity.
    - replace (Z.of_nat (S e) - 1)%Z with (Z.of_nat e) by lia.
      assert (E : episode_tail x (S e) = map (fun k => (x, Z.of_nat e - 1 - Z.of_nat k)%Z) (seq 0 e)).
      { unfold episode_tail. replace (Nat.max 1 (S e) - 1)%nat with e by lia. apply map_ext. intros k. apply (f_equal (pair x)). lia. }
      rewrite E, (countdown e (S t) x rest). replace (t + Nat.max 1 (S e))%nat with (S t + e)%nat by lia. reflexivity.
  Qed.

  Lemma episodes_path : forall eps t x,
    semi_path tables d t [(x, 0%Z)] (map (fun p => [p]) (concat (map (fun xe => episode_pairs (fst xe) (snd xe)) eps))) ==
    episodes_probability tables d t x eps.
  Proof.
    induction eps as [|[x' e] eps IH]; intros t x; [reflexivity|].
    cbn [map concat fst snd episodes_probability]. unfold episode_pairs at 1. rewrite <- app_comm_cons. cbn [map semi_path].
    rewrite (episode_goes_on t x' e), IH. cbn [combine map product fst snd]. unfold semi_move, by_timer. cbn [fst snd].
    change (0 <? 1)%Z with true. assert (Z.of_nat e - 1 + 1 <? 0 = false)%Z as -> by (apply Z.ltb_ge; lia).
    replace (Z.to_nat (Z.of_nat e - 1 + 1)) with e by lia. ring.
  Qed.

  Lemma episodes_whole : forall pdf sdurs x e eps,
    product (map (semi_begin pdf sdurs) [(x, (Z.of_nat e - 1)%Z)]) *
      semi_path tables d 1 [(x, Z.of_nat e - 1)%Z] (map (fun p => [p]) (episode_tail x e ++ concat (map (fun xe => episode_pairs (fst xe) (snd xe)) eps))) ==
    entry pdf x * entry (nth x sdurs []) e * episodes_probability tables d (Nat.max 1 e) x eps.
  Proof.
    intros pdf sdurs x e eps. rewrite (episode_goes_on 0 x e), episodes_path. cbn [map product]. unfold semi_begin, by_timer. cbn [fst snd].
    assert (Z.of_nat e - 1 + 1 <? 0 = false)%Z as -> by (apply Z.ltb_ge; lia). replace (Z.to_nat (Z.of_nat e - 1 + 1)) with e by lia. cbn [Nat.add]. ring.
  Qed.
End Episodes.
