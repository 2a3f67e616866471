(** * Proofs about the occupancy derived from the German survey. *)

From Coq Require Import String List ZArith QArith Bool Arith Lia.
From Verif Require Import Prelude PreludeFacts SpecBase SpecBaseFacts Parse_Model Parse_Spec Parse_Proofs Parse_DurProofs Parse_TpmProofs Appliance_Model StateMetric_Model
  Matrix_Proofs Activity_LabelProofs GTou_Model GTou_Spec GTou_Proofs.
Import ListNotations.
Local Open Scope Z_scope.

Lemma transportation_code : forall c, is_transportation c = true <-> travel_code c.
Proof. intro c. unfold is_transportation, travel_code. rewrite !andb_true_iff, !negb_true_iff, Z.leb_le, !Z.eqb_neq. tauto. Qed.

Lemma work_school_code : forall c, is_for_work_or_school c = true <-> work_code c.
Proof. intro c. unfold is_for_work_or_school, work_code. rewrite orb_true_iff, !andb_true_iff, !Z.leb_le, Z.ltb_lt. tauto. Qed.

Lemma travels_at : forall ps ss i, nth_error (travels ps ss) i = Some true <-> travelling ps ss i.
Proof.
  intros ps ss i. change (at_ (travels ps ss) i true <-> travelling ps ss i). unfold travels. rewrite at_map2. unfold travelling. split.
  - intros (x & y & Hx & Hy & E). exists x, y. symmetry in E. apply orb_true_iff in E. rewrite !transportation_code in E. auto.
  - intros (x & y & Hx & Hy & E). exists x, y. split; [exact Hx|]. split; [exact Hy|]. symmetry. apply orb_true_iff. rewrite !transportation_code. exact E.
Qed.

Lemma where_from_app : forall a b k, where_from k (a ++ b)%list = (where_from k a ++ where_from (k + length a) b)%list.
Proof.
  induction a as [|x a IH]; intros b k; cbn [List.app where_from length]; [rewrite Nat.add_0_r; reflexivity|].
  rewrite IH. replace (S k + length a)%nat with (k + S (length a))%nat by lia. destruct x; reflexivity.
Qed.

Lemma last_travel_spec : forall ps ss, let T := travels ps ss in
  last_travel ps ss = -42 /\ (forall i, nth_error T i <> Some true) \/
  exists k, last_travel ps ss = Z.of_nat k /\ nth_error T k = Some true /\ forall i, nth_error T i = Some true -> (i <= k)%nat.
Proof.
  intros ps ss T. unfold last_travel. fold T. induction T as [|b T IH] using rev_ind.
  - left. split; [reflexivity|]. intros [|i]; discriminate.
  - unfold where_true in *. rewrite where_from_app, rev_app_distr. destruct b; cbn [where_from rev List.app Nat.add].
    + right. exists (length T). split; [reflexivity|]. split; [rewrite nth_error_app2, Nat.sub_diag by lia; reflexivity|].
      intros i Hi. assert (i < length (T ++ [true]))%nat by (apply nth_error_Some; congruence). rewrite List.app_length in H. cbn in H. lia.
    + assert (X : forall i, nth_error (T ++ [false])%list i = Some true -> nth_error T i = Some true).
      { intros i Hi. destruct (Nat.lt_ge_cases i (length T)) as [L|G]; [rewrite nth_error_app1 in Hi by lia; exact Hi|]. rewrite nth_error_app2 in Hi by lia.
        destruct (i - length T)%nat as [|[|]]; discriminate. }
      destruct IH as [(E & N)|(k & E & Hk & M)]; [left|right].
      * split; [exact E|]. intros i Hi. apply (N i), X, Hi.
      * exists k. split; [exact E|]. split; [|intros i Hi; apply M, X, Hi]. rewrite nth_error_app1; [exact Hk|apply nth_error_Some; congruence].
Qed.

Section Loop.
Variables (e final last : Z) (T : list bool) (init : bool).
Hypothesis He : e = -42 /\ (forall i, nth_error T i <> Some true) \/
  exists k, e = Z.of_nat k /\ nth_error T k = Some true /\ forall i, nth_error T i = Some true -> (i <= k)%nat.

Definition fin : bool := (final =? 1) || (final =? -1) && negb (last =? 0).
Definition left_by (i : nat) : bool := existsb (fun b => b) (firstn i T).
Definition value (i : nat) : bool := if left_by (S i) then if Z.of_nat i <=? e then false else fin else init.

Lemma firstn_S_at : forall A (l : list A) i x, nth_error l i = Some x -> firstn (S i) l = (firstn i l ++ [x])%list.
Proof. induction l as [|y l IH]; intros [|i] x H; try discriminate; [injection H as ->; reflexivity|]. cbn [firstn List.app]. cbn in H. rewrite <- (IH i x H). reflexivity. Qed.

Lemma left_by_true : forall i, left_by i = true <-> exists j, (j < i)%nat /\ nth_error T j = Some true.
Proof.
  intro i. unfold left_by. rewrite existsb_exists. split.
  - intros (b & Hb & ->). apply in_at in Hb. destruct Hb as (j & Hj). pose proof (at_lt _ _ _ _ Hj) as L. rewrite firstn_length in L. exists j. split; [lia|].
    unfold at_ in Hj. clear - Hj L. revert i j Hj L. induction T as [|b T' IH]; intros [|i] [|j] Hj L; cbn in *; try lia; try discriminate; [exact Hj|]. apply (IH i); [exact Hj|]. lia.
  - intros (j & Hj & E). exists true. split; [|reflexivity]. clear - Hj E. revert i j Hj E. induction T as [|b T' IH]; intros [|i] [|j] Hj E; try lia; try discriminate; cbn in *; [left; congruence|]. right. apply (IH i j); [lia|exact E].
Qed.

Lemma loop_spec : forall xs i st, skipn i T = map fst xs -> (i <= length T)%nat -> was_travelling st = false ->
  at_home st = (if left_by i then if Z.of_nat i - 1 <=? e then false else fin else init) ->
  forall j b, at_ (occupancy_loop e final last i xs st) j b -> b = value (i + j).
Proof.
  induction xs as [|x xs IH]; intros i st Hs Hl Hw Hh j b Hb; [destruct j; discriminate|].
  assert (Hx : nth_error T i = Some (fst x)). { clear - Hs. revert i Hs. induction T as [|t T' IHT]; intros [|i] Hs; cbn in Hs; try discriminate; [injection Hs as -> _; reflexivity|]. cbn. auto. }
  set (st' := occupancy_step e final last i x st).
  assert (Hw' : was_travelling st' = false) by exact Hw.
  assert (Hh' : at_home st' = value i).
  { unfold st', occupancy_step, value. cbn [at_home was_travelling]. rewrite Hw. cbn [negb andb]. rewrite Hh. unfold left_by. rewrite (firstn_S_at _ _ _ _ Hx), existsb_app. cbn [existsb]. rewrite orb_false_r.
    fold (left_by i). destruct (fst x) eqn:Ex.
    - rewrite orb_true_r. destruct He as [(-> & N)|(k & -> & Hk & M)]; [exfalso; eapply N; eauto|]. specialize (M i Hx).
      replace (Z.of_nat k =? Z.of_nat i - 1) with false by (symmetry; apply Z.eqb_neq; lia). cbn [andb]. replace (Z.of_nat i <=? Z.of_nat k) with true by (symmetry; apply Z.leb_le; lia). reflexivity.
    - rewrite orb_false_r. destruct (left_by i) eqn:El.
      + destruct (Z.eqb_spec e (Z.of_nat i - 1)) as [Ee|Ne]; cbn [andb].
        * replace (Z.of_nat i - 1 <=? e) with true by (symmetry; apply Z.leb_le; lia). replace (Z.of_nat i <=? e) with false by (symmetry; apply Z.leb_gt; lia). unfold fin.
          destruct (Z.eqb_spec final 1) as [->|]; [reflexivity|]. destruct (Z.eqb_spec final 2) as [->|]; [reflexivity|]. destruct (final =? -1); reflexivity.
        * destruct (Z.leb_spec (Z.of_nat i - 1) e); destruct (Z.leb_spec (Z.of_nat i) e); try reflexivity; lia.
      + destruct (Z.eqb_spec e (Z.of_nat i - 1)) as [Ee|Ne]; [|reflexivity]. exfalso.
        destruct He as [(E & N)|(k & E & Hk & M)]; [lia|]. assert (left_by i = true) by (apply left_by_true; exists k; split; [lia|exact Hk]). congruence. }
  change (at_ (at_home st' :: occupancy_loop e final last (S i) xs st') j b) in Hb. destruct j as [|j].
  - unfold at_ in Hb. cbn in Hb. injection Hb as <-. rewrite Nat.add_0_r. exact Hh'.
  - replace (i + S j)%nat with (S i + j)%nat by lia. apply (IH (S i) st').
    + clear - Hs. revert i Hs. induction T as [|t T' IHT]; intros [|i] Hs; cbn in Hs |- *; try discriminate; [injection Hs as _ Hs; exact Hs|]. apply IHT. exact Hs.
    + assert (i < length T)%nat by (apply nth_error_Some; congruence). lia.
    + exact Hw'.
    + rewrite Hh'. unfold value. replace (Z.of_nat (S i) - 1) with (Z.of_nat i) by lia. reflexivity.
    + exact Hb.
Qed.
End Loop.

Lemma loop_length : forall e final last xs i st, length (occupancy_loop e final last i xs st) = length xs.
Proof. induction xs as [|x xs IH]; intros; cbn; [reflexivity|]. rewrite IH. reflexivity. Qed.

Lemma person_spec : forall ps ss ratings initial final w, length ps = w -> length ss = w -> length ratings = w -> (0 < w)%nat -> (forall r, In r ratings -> 0 <= r) ->
  exists o, person_occupancy ps ss ratings initial final = Ok o /\ length o = w /\ forall i b, at_ o i b ->
    ((forall j, (j <= i)%nat -> ~ travelling ps ss j) -> (b = true <-> initial = 1 \/ initial = -1)) /\
    ((exists j, (j <= i)%nat /\ travelling ps ss j) -> (exists k, (i <= k)%nat /\ travelling ps ss k) -> b = false) /\
    ((exists j, (j <= i)%nat /\ travelling ps ss j) -> (forall k, (i <= k)%nat -> ~ travelling ps ss k) -> (b = true <-> final = 1 \/ final = -1 /\ List.last ratings 0 <> 0)).
Proof.
  intros ps ss ratings initial final w Lp Ls Lr Hw Hr. unfold person_occupancy. destruct ratings as [|first rs]; [cbn in Lr; lia|].
  set (ratings := first :: rs) in *. set (T := travels ps ss).
  assert (LT : length T = w) by (unfold T, travels; rewrite map2_length; lia).
  eexists. split; [reflexivity|]. split; [rewrite loop_length, combine_length; fold T; lia|]. intros i b Hb.
  pose proof (last_travel_spec ps ss) as He. cbn zeta in He. fold T in He.
  apply (loop_spec _ _ _ T (initially_home initial first)) in Hb; [|exact He| |lia|reflexivity|reflexivity].
  2:{ cbn [skipn]. clear - LT Lr. fold T. revert LT Lr. generalize ratings. revert w. induction T as [|t T' IH]; intros w [|r l]; cbn; intros; try lia; [reflexivity|]. f_equal. apply (IH (pred w)); lia. }
  cbn [Nat.add] in Hb. subst b.
  assert (LB : left_by T (S i) = true <-> exists j, (j <= i)%nat /\ travelling ps ss j).
  { rewrite left_by_true. split; intros (j & H1 & H2); exists j; (split; [lia|]); apply travels_at; exact H2. }
  assert (LA : (exists k, (i <= k)%nat /\ travelling ps ss k) <-> (Z.of_nat i <=? last_travel ps ss) = true).
  { rewrite Z.leb_le. destruct He as [(E & N)|(k & E & Hk & M)].
    - rewrite E. split; [intros (k & _ & Hk); apply travels_at in Hk; exfalso; eapply N; exact Hk|lia].
    - rewrite E. split; [intros (k' & L & Hk'); apply travels_at in Hk'; specialize (M _ Hk'); lia|]. intro L. exists k. split; [lia|]. apply travels_at. exact Hk. }
  unfold value. split; [|split].
  - intro N. replace (left_by T (S i)) with false by (symmetry; apply not_true_is_false; rewrite LB; intros (j & H1 & H2); exact (N j H1 H2)).
    unfold initially_home. destruct (Z.eqb_spec initial 1); [tauto|]. destruct (Z.eqb_spec initial (-1)); [|split; [discriminate|intros [?|?]; congruence]].
    replace (0 <=? first) with true; [tauto|]. symmetry. apply Z.leb_le. apply Hr. left. reflexivity.
  - intros L A. rewrite (proj2 LB L), (proj1 LA A). reflexivity.
  - intros L A. rewrite (proj2 LB L). replace (Z.of_nat i <=? last_travel ps ss) with false.
    + unfold fin. rewrite orb_true_iff, andb_true_iff, negb_true_iff, !Z.eqb_eq, Z.eqb_neq. tauto.
    + symmetry. apply not_true_is_false. rewrite <- LA. intros (k & H1 & H2). exact (A k H1 H2).
Qed.

(** The rating index is 0 exactly for the least ratings. *)
Lemma convert_least : forall (d : codes Z) raw, (exists p i x, diary raw p i x) -> (forall p i x, diary raw p i x -> meaning d x <> None) ->
  exists out labels, convert_states Z.compare Z.compare (merge d) raw = Ok (out, labels) /\ length out = length raw /\
    (forall p r r', at_ raw p r -> at_ out p r' -> length r' = length r) /\
    (forall p i x, diary raw p i x -> exists k, diary out p i k /\ (k = 0%nat <-> least_rating d raw x)).
Proof.
  intros d raw NE K. destruct (@convert_spec Z Z Z.compare Z.compare Z_order Z_order (merge d) raw NE) as (out & labels & E & L1 & L2 & V & S & C).
  { intros p i x H. rewrite meaning_merge. eauto. }
  exists out, labels. split; [exact E|]. split; [exact L1|]. split; [exact L2|]. intros p i x Hx. destruct (V p i x Hx) as (k & y & Hk & Ey & Hy). exists k. split; [exact Hk|].
  rewrite meaning_merge in Ey. split.
  - intros ->. exists y. split; [exact Ey|]. intros p' i' c' v' Hc' Ev'. destruct (V p' i' c' Hc') as (k' & y' & Hk' & Ey' & Hy'). rewrite meaning_merge in Ey'. assert (y' = v') by congruence. subst y'.
    destruct k' as [|k']; [unfold at_ in *; assert (y = v') by congruence; lia|]. pose proof (S 0%nat (Datatypes.S k') _ _ ltac:(lia) Hy Hy') as X. change (y < v') in X. lia.
  - intros (v & Ev & M). assert (v = y) by congruence. subst v. destruct k as [|k]; [reflexivity|exfalso].
    destruct (lt_at _ labels 0) as (y0 & Hy0); [pose proof (at_lt _ _ _ _ Hy); lia|]. pose proof (S 0%nat (Datatypes.S k) _ _ ltac:(lia) Hy0 Hy) as X. change (y0 < y) in X.
    destruct (C 0%nat (at_lt _ _ _ _ Hy0)) as (p' & i' & r' & Hp' & Hi'). destruct (lt_at _ raw p') as (r & Hr); [rewrite <- L1; apply (at_lt _ _ _ _ Hp')|].
    destruct (lt_at _ r i') as (c' & Hc'); [rewrite <- (L2 p' r r' Hr Hp'); apply (at_lt _ _ _ _ Hi')|].
    destruct (V p' i' c') as (k' & y' & (r2 & G1 & G2) & Ey' & Hy'); [exists r; auto|]. unfold at_ in *. assert (r2 = r') by congruence. subst r2. assert (k' = 0%nat) by congruence. subst k'. assert (y' = y0) by congruence. subst y'.
    rewrite meaning_merge in Ey'. specialize (M p' i' c' y0 (ex_intro _ r (conj Hr Hc')) Ey'). lia.
Qed.

Lemma map5M_spec : forall A B C D E F (f : A -> B -> C -> D -> E -> result F) (P : nat -> F -> Prop) a b c d e n,
  length a = n -> length b = n -> length c = n -> length d = n -> length e = n ->
  (forall p x y z w v, at_ a p x -> at_ b p y -> at_ c p z -> at_ d p w -> at_ e p v -> exists r, f x y z w v = Ok r /\ P p r) ->
  exists rs, map5M f a b c d e = Ok rs /\ length rs = n /\ forall p r, at_ rs p r -> P p r.
Proof.
  intros A B C D E F f. intros P a. revert P. induction a as [|x a IH]; intros P [|y b] [|z c] [|w d] [|v e] n La Lb Lc Ld Le H; cbn in *; try lia.
  - exists []. split; [reflexivity|]. split; [exact La|]. intros [|p] r Hr; discriminate.
  - destruct (H 0%nat x y z w v eq_refl eq_refl eq_refl eq_refl eq_refl) as (r & Er & Pr). rewrite Er. cbn [bind].
    destruct (IH (fun p => P (S p)) b c d e (pred n)) as (rs & Ers & L & Prs); try lia.
    { intros p. exact (H (S p)). }
    rewrite Ers. cbn [bind]. exists (r :: rs). split; [reflexivity|]. split; [cbn; lia|]. intros [|p] r' Hr'; [injection Hr' as <-; exact Pr|apply Prs; exact Hr'].
Qed.

Lemma last_at : forall A (l : list A) d, l <> [] -> at_ l (length l - 1) (last l d).
Proof.
  induction l as [|x l IH]; intros d N; [congruence|]. destruct l as [|y l]; [reflexivity|]. specialize (IH d ltac:(discriminate)). cbn [length Nat.sub] in *. rewrite Nat.sub_0_r in *. exact IH.
Qed.

Lemma occupancy_main : forall prim sec initial final d n w, sized n w prim -> sized n w sec -> length initial = n -> length final = n -> (0 < n)%nat -> (0 < w)%nat ->
  (forall p i c, diary prim p i c -> meaning d c <> None) -> (forall p i c, diary sec p i c -> meaning d c <> None) ->
  exists o, states_to_occupancy prim sec initial final d = Ok o /\ sized n w o /\ forall p ps ss a z i b, at_ prim p ps -> at_ sec p ss -> at_ initial p a -> at_ final p z -> diary o p i b ->
    ((forall j, (j <= i)%nat -> ~ travelling ps ss j) -> (b = true <-> a = 1 \/ a = -1)) /\
    ((exists j, (j <= i)%nat /\ travelling ps ss j) -> (exists k, (i <= k)%nat /\ travelling ps ss k) -> b = false) /\
    ((exists j, (j <= i)%nat /\ travelling ps ss j) -> (forall k, (i <= k)%nat -> ~ travelling ps ss k) ->
       forall c c', at_ ps (w - 1) c -> at_ ss (w - 1) c' -> (b = true <-> z = 1 \/ z = -1 /\ ~ (least_rating d prim c /\ least_rating d sec c'))).
Proof.
  intros prim sec initial final d n w Sp Ss Li Lf Hn Hw Kp Ks.
  assert (NE : forall (t : list (list Z)), sized n w t -> exists p i x, diary t p i x). { intros t St. destruct (sized_diary _ _ _ _ 0 0 St Hn Hw) as (x & Hx). eauto. }
  destruct (convert_least d prim (NE _ Sp) Kp) as (out1 & lab1 & E1 & L1 & W1 & V1).
  destruct (convert_least d sec (NE _ Ss) Ks) as (out2 & lab2 & E2 & L2 & W2 & V2).
  unfold states_to_occupancy. rewrite E1. cbn [bind]. rewrite E2. cbn [bind fst].
  assert (S1 : sized n w out1). { split; [rewrite L1; apply Sp|]. intros r Hr. apply in_at in Hr. destruct Hr as (p & Hr). destruct (lt_at _ prim p) as (r0 & Hr0); [rewrite <- L1; apply (at_lt _ _ _ _ Hr)|]. rewrite (W1 p r0 r Hr0 Hr). apply Sp. eapply at_in; eauto. }
  assert (S2 : sized n w out2). { split; [rewrite L2; apply Ss|]. intros r Hr. apply in_at in Hr. destruct Hr as (p & Hr). destruct (lt_at _ sec p) as (r0 & Hr0); [rewrite <- L2; apply (at_lt _ _ _ _ Hr)|]. rewrite (W2 p r0 r Hr0 Hr). apply Ss. eapply at_in; eauto. }
  set (rat := cell2 (fun a b => Z.of_nat a + Z.of_nat b) out1 out2). assert (Sr : sized n w rat) by (apply sized_cell2; assumption).
  edestruct (map5M_spec _ _ _ _ _ _ person_occupancy (fun p o => length o = w /\ forall ps ss a z i b, at_ prim p ps -> at_ sec p ss -> at_ initial p a -> at_ final p z -> at_ o i b ->
    ((forall j, (j <= i)%nat -> ~ travelling ps ss j) -> (b = true <-> a = 1 \/ a = -1)) /\
    ((exists j, (j <= i)%nat /\ travelling ps ss j) -> (exists k, (i <= k)%nat /\ travelling ps ss k) -> b = false) /\
    ((exists j, (j <= i)%nat /\ travelling ps ss j) -> (forall k, (i <= k)%nat -> ~ travelling ps ss k) ->
       forall c c', at_ ps (w - 1) c -> at_ ss (w - 1) c' -> (b = true <-> z = 1 \/ z = -1 /\ ~ (least_rating d prim c /\ least_rating d sec c'))))
    prim sec rat initial final n (proj1 Sp) (proj1 Ss) (proj1 Sr) Li Lf) as (o & Eo & Lo & Po).
  - intros p ps ss rs a z Hps Hss Hrs Ha Hz.
    destruct (person_spec ps ss rs a z w) as (o & Eo & Lo & Po).
    { apply Sp. eapply at_in; eauto. } { apply Ss. eapply at_in; eauto. } { apply Sr. eapply at_in; eauto. } { exact Hw. }
    { intros r Hr. apply in_at in Hr. destruct Hr as (i & Hi). assert (D : diary rat p i r) by (exists rs; auto). apply diary_cell2 in D. destruct D as (k1 & k2 & _ & _ & ->). lia. }
    exists o. split; [exact Eo|]. split; [exact Lo|]. intros ps' ss' a' z' i b H1 H2 H3 H4 Hb. unfold at_ in H1, H2, H3, H4, Hps, Hss, Ha, Hz.
    assert (ps' = ps) by congruence. assert (ss' = ss) by congruence. assert (a' = a) by congruence. assert (z' = z) by congruence. subst ps' ss' a' z'.
    destruct (Po i b Hb) as (P1 & P2 & P3). split; [exact P1|]. split; [exact P2|]. intros Q1 Q2 c c' Hc Hc'. rewrite (P3 Q1 Q2).
    enough (X : last rs 0 <> 0 <-> ~ (least_rating d prim c /\ least_rating d sec c')) by (rewrite X; reflexivity).
    assert (Lrs : length rs = w) by (apply Sr; eapply at_in; eauto).
    assert (At : at_ rs (w - 1) (last rs 0)). { rewrite <- Lrs. apply last_at. intro. subst rs. cbn in Lrs. lia. }
    assert (D : diary rat p (w - 1) (last rs 0)) by (exists rs; split; [exact Hrs|exact At]). apply diary_cell2 in D. destruct D as (k1 & k2 & D1 & D2 & ->).
    destruct (V1 p (w - 1)%nat c) as (k1' & D1' & I1); [exists ps; auto|]. destruct (V2 p (w - 1)%nat c') as (k2' & D2' & I2); [exists ss; auto|].
    rewrite (diary_fun _ _ _ _ _ _ D1 D1'), (diary_fun _ _ _ _ _ _ D2 D2'). clear - I1 I2. rewrite <- I1, <- I2. lia.
  - exists o. split; [exact Eo|]. split; [split; [exact Lo|]|].
    + intros r Hr. apply in_at in Hr. destruct Hr as (p & Hr). apply (Po p r Hr).
    + intros p ps ss a z i b H1 H2 H3 H4 (r & Hr & Hb). apply (proj2 (Po p r Hr) ps ss a z i b); assumption.
Qed.

(** ** Out for what *)

Lemma out_main : forall o prim sec p i b c c', diary o p i b -> diary prim p i c -> diary sec p i c' ->
  exists x, diary (states_to_out_for_what_model o prim sec) p i x /\
    (b = true -> x = 0) /\ (b = false -> (work_code c \/ work_code c') -> x = 1) /\ (b = false -> ~ work_code c -> ~ work_code c' -> x = 2).
Proof.
  intros o prim sec p i b c c' (ro & Ho & Hb) (rp & Hp & Hc) (rs & Hs & Hc').
  assert (Cb : forall A B (l : list A) (m : list B) j x y, at_ l j x -> at_ m j y -> at_ (combine l m) j (x, y)).
  { clear. unfold at_. induction l as [|u l IH]; intros [|v m] [|j] x y H1 H2; try discriminate; cbn in *; [congruence|]. apply IH; assumption. }
  exists (out_for_what b c c'). split.
  - eexists. split.
    + unfold states_to_out_for_what_model. apply at_map2. exists ro, (rp, rs). split; [exact Ho|]. split; [apply Cb; assumption|reflexivity].
    + apply at_map2. exists b, (c, c'). cbn [fst snd]. split; [exact Hb|]. split; [apply Cb; assumption|reflexivity].
  - unfold out_for_what. split; [intros ->; reflexivity|]. split; intros ->.
    + intro H. rewrite <- !work_school_code in H. rewrite (proj2 (orb_true_iff _ _) H). reflexivity.
    + intros H1 H2. rewrite <- work_school_code in H1, H2. destruct (is_for_work_or_school c); [congruence|]. destruct (is_for_work_or_school c'); [congruence|]. reflexivity.
Qed.

(** ** The final location *)

Lemma roll_on_at : forall A (l : list A) p x, at_ (roll_on l) p x <-> (p < length l)%nat /\ at_ l (match p with O => length l - 1 | S q => q end) x.
Proof.
  intros A l p x. destruct l as [|y l]; [split; [destruct p; discriminate|cbn; lia]|]. unfold roll_on. set (L := y :: l).
  assert (NL : L <> []) by discriminate. destruct p as [|q].
  - pose proof (last_at _ L y NL) as X. unfold at_ in *. cbn [nth_error]. rewrite X. split; [intro; split; [cbn; lia|assumption]|tauto].
  - unfold at_. cbn [nth_error]. rewrite (app_removelast_last y NL) at 3. assert (LR : length L = S (length (removelast L))) by (rewrite (app_removelast_last y NL) at 1; rewrite List.app_length; cbn; lia).
    split.
    + intro H. assert (q < length (removelast L))%nat by (apply nth_error_Some; congruence). split; [lia|]. rewrite nth_error_app1 by lia. exact H.
    + intros (Hq & H). rewrite nth_error_app1 in H by lia. exact H.
Qed.

Lemma final_main : forall initial final p f, at_ final p f -> length initial = length final ->
  exists x, at_ (final_location initial final) p x /\ (f <> -2 -> x = f) /\ (f = -2 -> at_ initial (match p with O => length initial - 1 | S q => q end) x).
Proof.
  intros initial final p f Hf L. destruct (lt_at _ initial (match p with O => length initial - 1 | S q => q end)) as (y & Hy); [pose proof (at_lt _ _ _ _ Hf); destruct p; lia|].
  assert (R : at_ (roll_on initial) p y) by (apply roll_on_at; split; [pose proof (at_lt _ _ _ _ Hf); lia|exact Hy]).
  exists (if f =? -2 then y else f). split; [unfold final_location; apply at_map2; exists f, y; auto|]. destruct (Z.eqb_spec f (-2)); split; congruence || (intro; exact Hy).
Qed.
