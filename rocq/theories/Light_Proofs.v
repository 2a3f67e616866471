(** * Proofs about lighting. *)

From Coq Require Import String List ZArith QArith Qround Bool Arith Lia Lqa.
From Verif Require Import Prelude PreludeFacts SpecBase SpecBaseFacts Parse_Model Sampling_Model Appliance_Model Appliance_Spec.
From Verif Require Import Matrix_Proofs Appliance_Proofs Light_Model Light_Spec.
Import ListNotations.

Open Scope Q_scope.

(** ** Fisher *)

Lemma clip01_range : forall x, 0 <= clip01 x <= 1.
Proof.
  intro x. unfold clip01. destruct (Qltb x 0) eqn:E; [lra|]. destruct (Qltb 1 x) eqn:E2; [lra|].
  apply Qltb_ge in E. apply Qltb_ge in E2. lra.
Qed.

Lemma clip01_mono : forall x y, x <= y -> clip01 x <= clip01 y.
Proof.
  intros x y H. unfold clip01.
  destruct (Qltb x 0) eqn:E1, (Qltb y 0) eqn:E2, (Qltb 1 x) eqn:E3, (Qltb 1 y) eqn:E4;
    rewrite ?Qltb_lt, ?Qltb_ge in *; lra.
Qed.

Lemma clip01_one : forall x, 1 <= x -> clip01 x == 1.
Proof.
  intros x H. unfold clip01. destruct (Qltb x 0) eqn:E1; rewrite ?Qltb_lt, ?Qltb_ge in *; [lra|].
  destruct (Qltb 1 x) eqn:E2; rewrite ?Qltb_lt, ?Qltb_ge in *; lra.
Qed.

Lemma clip01_zero : forall x, x <= 0 -> clip01 x == 0.
Proof.
  intros x H. unfold clip01. destruct (Qltb x 0) eqn:E1; rewrite ?Qltb_lt, ?Qltb_ge in *; [lra|].
  destruct (Qltb 1 x) eqn:E2; rewrite ?Qltb_lt, ?Qltb_ge in *; lra.
Qed.

Lemma clip01_id : forall x, 0 <= x -> x <= 1 -> clip01 x == x.
Proof.
  intros x H H'. unfold clip01. destruct (Qltb x 0) eqn:E1; rewrite ?Qltb_lt, ?Qltb_ge in *; [lra|].
  destruct (Qltb 1 x) eqn:E2; rewrite ?Qltb_lt, ?Qltb_ge in *; lra.
Qed.

Lemma fisher_power_ok : forall f, f_min f < f_max f -> exists v,
  fisher_power f = Ok (match f_occ f with Single x => Single (x * f_use f * v)
                       | PerHousehold l => PerHousehold (map (fun x => x * f_use f * v) l) end) /\
  v == clip01 ((f_max f - f_irr f) / (f_max f - f_min f)).
Proof.
  intros f H. unfold fisher_power, light_usage. destruct (Qeq_bool (f_max f - f_min f) 0) eqn:E.
  - apply Qeq_bool_iff in E. lra.
  - simpl. eexists. split; reflexivity.
Qed.

Lemma clip01_comp : forall x y, x == y -> clip01 x == clip01 y.
Proof. intros x y H. assert (clip01 x <= clip01 y) by (apply clip01_mono; lra). assert (clip01 y <= clip01 x) by (apply clip01_mono; lra). lra. Qed.

(** ** CREST: one step *)

Lemma at2_cells : forall A B (f : nat -> nat -> A -> B) m h j y,
  at2 (cells f m) h j y <-> exists x, at2 m h j x /\ y = f h j x.
Proof.
  intros A B f m h j y. unfold cells, at2. split.
  - intros (row & H1 & H2). apply at_map2 in H1. destruct H1 as (h' & r & H1 & H3 & ->). apply at_seq in H1. destruct H1 as [_ ->].
    apply at_map2 in H2. destruct H2 as (j' & p & H4 & H5 & ->). apply at_seq in H4. destruct H4 as [_ ->]. simpl. eauto.
  - intros (p & (r & H1 & H2) & ->). eexists. split; apply at_map2.
    + exists h, r. split; [apply at_seq; split; [eapply at_lt; eauto|lia]|]. split; [exact H1|reflexivity].
    + exists j, p. split; [apply at_seq; split; [eapply at_lt; eauto|lia]|]. split; [exact H2|reflexivity].
Qed.

Lemma compress_in : forall A (g : A -> result bool) l m k, mapM g l = Ok m -> (In k (compress m l) <-> In k l /\ g k = Ok true).
Proof.
  intros A g. induction l as [|a l IH]; intros m k H; simpl in H.
  - injection H as <-. simpl. tauto.
  - destruct (g a) as [b|] eqn:E; simpl in H; [|discriminate]. destruct (mapM g l) as [m'|] eqn:El; simpl in H; [|discriminate].
    injection H as <-. simpl. destruct b; simpl; rewrite (IH _ _ eq_refl).
    + split; [intros [->|[H1 H2]]; auto|]. intros [[->|H1] H2]; auto.
    + split; [intros [H1 H2]; auto|]. intros [[->|H1] H2]; [congruence|auto].
Qed.

Lemma mc_one_picks : forall cdf e k, mc_one cdf e = Ok k -> picks cdf e k.
Proof.
  intros cdf e k H. unfold mc_one, argmax_bool in H. destruct (map (fun c => Qltb e c) cdf) as [|b0 t0] eqn:Em; [discriminate|].
  rewrite <- Em in *. destruct (first_true (map (fun c : Q => Qltb e c) cdf)) as [i|] eqn:E.
  - injection H as <-. apply first_true_some in E. destruct E as [E1 E2]. left. rewrite nth_error_map in E1.
    destruct (nth_error cdf i) as [c|] eqn:Ec; simpl in E1; [|discriminate]. injection E1 as E1. exists c.
    split; [exact Ec|]. split; [now apply Qltb_lt|]. intros k' c' Hk Hc. specialize (E2 k' Hk). rewrite nth_error_map in E2.
    unfold at_ in Hc. rewrite Hc in E2. simpl in E2. injection E2 as E2. now apply Qltb_ge.
  - injection H as <-. right. split; [reflexivity|]. intros k' c' Hc. apply first_true_none in E. rewrite Forall_forall in E.
    apply Qltb_ge. apply E. apply in_map_iff. exists c'. split; [reflexivity|eapply at_in; eauto].
Qed.

Lemma mc_one_total : forall cdf e, cdf <> [] -> exists k, mc_one cdf e = Ok k /\ (k < length cdf)%nat.
Proof.
  intros cdf e H. unfold mc_one, argmax_bool. destruct (map (fun c => Qltb e c) cdf) as [|b0 t0] eqn:Em; [destruct cdf; [congruence|discriminate]|].
  rewrite <- Em. destruct (first_true _) as [i|] eqn:E.
  - exists i. split; [reflexivity|]. apply first_true_some in E. destruct E as [E _].
    rewrite <- (map_length (fun c => Qltb e c) cdf). apply nth_error_Some. congruence.
  - exists 0%nat. split; [reflexivity|]. destruct cdf; [congruence|simpl; lia].
Qed.

Lemma draw_duration_ok : forall par i h j q, draw_duration par (d_int (in_d i) h j) (d_pos (in_d i) h j) = Ok q ->
  drawn_duration par i h j q.
Proof.
  intros par i h j q H. unfold draw_duration in H. destruct (mc_one _ _) as [k|] eqn:E; simpl in H; [|discriminate].
  destruct (vget (p_low par) k) as [lo|] eqn:El; simpl in H; [|discriminate].
  destruct (vget (p_high par) k) as [hi|] eqn:Eh; simpl in H; [|discriminate]. injection H as <-.
  exists k, lo, hi. apply vget_ok in El. apply vget_ok in Eh. apply mc_one_picks in E. split; [exact E|]. split; [exact El|].
  split; [exact Eh|reflexivity].
Qed.

(** Decision of the switch-on draw at one position. *)
Definition decide (par : lpar) (s : lsim) (d : ldraws) (eff : list Q) (k : nat * nat) : result bool :=
  bind (vget eff (fst k)) (fun e => bind (mget (l_use s) (fst k) (snd k)) (fun r =>
    Ok (Qltb (d_on d (fst k) (snd k)) (e * r * p_cal par)))).

Lemma active_to_effective_at : forall par occ eff h n, active_to_effective par occ = Ok eff -> at_ occ h n -> (0 <= n)%Z ->
  exists e, at_ eff h e /\ at_ (p_eff par) (Z.to_nat n) e.
Proof.
  intros par occ eff h n H Hn H0. destruct (mapM_ok _ _ _ _ _ H) as [_ K]. destruct (K h n Hn) as (e & He & Ee).
  exists e. split; [exact He|]. unfold py_index in Ee. destruct (Z.leb_spec 0 n); [|lia].
  destruct (n <? _)%Z; simpl in Ee; [|discriminate]. now apply vget_ok.
Qed.

Lemma zset_at : forall (occ : list Z) (m : list (list Z)) h j n x, at_ occ h n -> at2 m h j x ->
  at2 (map2 (fun (n : Z) row => if Z.eqb n 0 then map (fun _ => 0%Z) row else row) occ m) h j (if Z.eqb n 0 then 0%Z else x).
Proof.
  intros occ m h j n x Hn (row & H1 & H2). eexists. split; [apply at_map2; exists n, row; split; [exact Hn|split; [exact H1|reflexivity]]|].
  destruct (n =? 0)%Z; [|exact H2]. apply at_map. exists x. auto.
Qed.

Lemma light_step_at : forall par s i s' h j b n, light_do par s i = Ok s' -> bulb_at s h j b ->
  at_ (in_occ i) h n -> (0 <= n)%Z ->
  exists b', bulb_at s' h j b' /\ same_bulb b b' /\
    (n = 0%Z -> b_left b' = 0%Z) /\
    ((0 < n)%Z -> less_one (b_left b) <> 0%Z -> b_left b' = less_one (b_left b)) /\
    ((0 < n)%Z -> less_one (b_left b) = 0%Z -> ~ drawn_on par i h j b -> b_left b' = 0%Z) /\
    ((0 < n)%Z -> less_one (b_left b) = 0%Z -> drawn_on par i h j b ->
       exists q, drawn_duration par i h j q /\ int_part q (b_left b')).
Proof.
  intros par s [d occ irr] s' h j b n H (B1 & B2 & B3 & B4) Hn H0. unfold light_do, light_step in H. simpl in H, Hn.
  set (left1 := map (map (fun t => if (0 <? t)%Z then Z.pred t else t)) (l_left s)) in *.
  destruct (active_to_effective par occ) as [eff|] eqn:Ee; simpl in H; [|discriminate].
  set (idx := where2 _) in H.
  match type of H with bind (mapM ?f ?l) _ = _ => change f with (decide par s d eff) in H; destruct (mapM (decide par s d eff) l) as [dec|] eqn:Ed end;
    simpl in H; [|discriminate].
  assert (Hc : p_cdf par <> []). { intro E. rewrite E in H. discriminate. }
  destruct (match p_cdf par with [] => true | _ => false end); [discriminate|].
  match type of H with bind (mapM ?f ?l) _ = _ => destruct (mapM f l) as [ds|] eqn:Em end; simpl in H; [|discriminate].
  match type of H with bind (mput ?kv ?l) _ = _ => destruct (mput kv l) as [left2|] eqn:Ep end; simpl in H; [|discriminate].
  destruct (Nat.eqb_spec (length occ) (length left2)) as [El|]; simpl in H; [|discriminate]. injection H as <-.
  destruct (active_to_effective_at par occ eff h n Ee Hn H0) as (e & He & Hee).
  assert (L1 : at2 left1 h j (less_one (b_left b))).
  { apply at2_map. exists (b_left b). split; [exact B4|]. unfold less_one. destruct (0 <? b_left b)%Z; lia. }
  assert (Hidx : In (h, j) idx <-> less_one (b_left b) = 0%Z /\ (irr < b_thr b \/ d_five d h j < 5 # 100)).
  { unfold idx. rewrite where2_in, at2_mmap2. split.
    - intros (x & y & Hx & Hy & Hxy). symmetry in Hxy. apply andb_true_iff in Hxy. destruct Hxy as [-> ->].
      apply at2_map in Hy. destruct Hy as (t & Ht & Et). rewrite (at2_fun _ _ _ _ _ _ Ht L1) in Et. symmetry in Et. apply Z.eqb_eq in Et.
      split; [exact Et|]. destruct Hx as (row & Hr & Hx). apply at_map2 in Hr. destruct Hr as (t0 & row0 & Ht0 & Hr0 & ->).
      rewrite (at_fun _ _ _ _ _ Ht0 B3) in Hx. apply at_map in Hx. destruct Hx as (x0 & Hx0 & Ex). symmetry in Ex.
      assert (Hc2 : at2 (cells (fun h j (_ : option Q) => d_five d h j) (l_power s)) h j x0) by (exists row0; auto).
      apply at2_cells in Hc2. destruct Hc2 as (p & _ & ->). apply orb_true_iff in Ex. rewrite !Qltb_lt in Ex. exact Ex.
    - intros [E1 E2]. exists true, true. split; [|split; [apply at2_map; exists (less_one (b_left b)); split; [exact L1|rewrite E1; reflexivity]|reflexivity]].
      assert (Hc2 : at2 (cells (fun h j (_ : option Q) => d_five d h j) (l_power s)) h j (d_five d h j)).
      { apply at2_cells. exists (b_pow b). auto. }
      destruct Hc2 as (row0 & Hr0 & Hx0). eexists. split; [apply at_map2; exists (b_thr b), row0; split; [exact B3|split; [exact Hr0|reflexivity]]|].
      apply at_map. exists (d_five d h j). split; [exact Hx0|]. symmetry. apply orb_true_iff. rewrite !Qltb_lt. exact E2. }
  assert (Hon : In (h, j) (compress dec idx) <-> less_one (b_left b) = 0%Z /\ drawn_on par (LIn d occ irr) h j b).
  { rewrite (compress_in _ _ _ _ (h, j) Ed). fold idx. rewrite Hidx. unfold drawn_on, decide. cbn [in_d in_occ in_irr fst snd].
    assert (G1 : vget eff h = Ok e) by (now apply vget_ok). assert (G2 : mget (l_use s) h j = Ok (b_use b)) by (now apply mget_ok).
    rewrite G1, G2. simpl. split.
    - intros [[A1 A2] A3]. split; [exact A1|]. split; [exact A2|]. exists n, e. injection A3 as A3. apply Qltb_lt in A3. auto.
    - intros [A1 [A2 (n' & e' & A3 & A4 & A5)]]. split; [auto|]. rewrite (at_fun _ _ _ _ _ A3 Hn) in A4.
      rewrite (at_fun _ _ _ _ _ A4 Hee) in A5. apply Qltb_lt in A5. now rewrite A5. }
  destruct (mapM_ok _ _ _ _ _ Em) as [Elen Kd].
  assert (Hkeys : map fst (combine (compress dec idx) (map trunc ds)) = compress dec idx).
  { clear -Elen. revert ds Elen. generalize (compress dec idx). induction l as [|a l IH]; intros [|q ds] E; simpl in *; try lia; [reflexivity|].
    f_equal. apply IH. lia. }
  apply mput_ok in Ep. destruct Ep as (P1 & P2 & _). rewrite Hkeys in P2.
  assert (L2 : exists x, at2 left2 h j x /\
     ((less_one (b_left b) = 0%Z /\ drawn_on par (LIn d occ irr) h j b) -> exists q, drawn_duration par (LIn d occ irr) h j q /\ int_part q x) /\
     (~ (less_one (b_left b) = 0%Z /\ drawn_on par (LIn d occ irr) h j b) -> x = less_one (b_left b))).
  { assert (DEC : forall k k' : nat * nat, {k = k'} + {k <> k'}) by (intros [a1 a2] [c1 c2]; decide equality; apply Nat.eq_dec).
    destruct (in_dec DEC (h, j) (compress dec idx)) as [Hin|Hout].
    - assert (Hk : exists v, In ((h, j), v) (combine (compress dec idx) (map trunc ds))).
      { rewrite <- Hkeys in Hin. apply in_map_iff in Hin. destruct Hin as ([k v] & E & Hin). simpl in E. subst k. eauto. }
      destruct (P1 h j Hk) as (v & Hv & Hat). exists v. split; [exact Hat|]. split; [|intro N; exfalso; apply N, Hon, Hin]. intros _.
      assert (Hq : exists q, v = trunc q /\ draw_duration par (d_int d h j) (d_pos d h j) = Ok q).
      { apply In_nth_error in Hv. destruct Hv as [m Hm].
        assert (Hl : forall (X Y : Type) (a : list X) (c : list Y) m x y, nth_error (combine a c) m = Some (x, y) ->
                     nth_error a m = Some x /\ nth_error c m = Some y).
        { clear. intros X Y. induction a as [|x0 a IH]; intros [|y0 c] [|m] x y E; simpl in *; try discriminate; [split; congruence|]. apply IH. exact E. }
        apply Hl in Hm. destruct Hm as [M1 M2]. rewrite nth_error_map in M2. destruct (nth_error ds m) as [q|] eqn:Eq; simpl in M2; [|discriminate].
        injection M2 as <-. exists q. split; [reflexivity|]. destruct (Kd _ _ M1) as (y & Hy & Ey). simpl in Ey. rewrite Eq in Hy. congruence. }
      destruct Hq as (q & -> & Hq). exists q. split; [apply (draw_duration_ok par (LIn d occ irr)); exact Hq|apply trunc_int_part].
    - exists (less_one (b_left b)). split; [apply P2; assumption|]. split; [intro N; exfalso; apply Hout, Hon, N|reflexivity]. }
  destruct L2 as (x & Hx & X1 & X2).
  exists (Bulb (b_pow b) (b_use b) (b_thr b) (if (n =? 0)%Z then 0%Z else x)).
  split. { split; [exact B1|]. split; [exact B2|]. split; [exact B3|]. simpl. apply zset_at; assumption. }
  split; [repeat split|]. cbn [b_left].
  split; [intros ->; reflexivity|].
  assert (Nz : (0 < n)%Z -> (n =? 0)%Z = false) by (intro; apply Z.eqb_neq; lia).
  split; [intros P E; rewrite (Nz P); apply X2; tauto|].
  split; [intros P E N; rewrite (Nz P); rewrite X2 by tauto; exact E|].
  intros P E D. rewrite (Nz P). apply X1. auto.
Qed.

(** ** Runs *)

Lemma light_run_left : forall par l s s' h j b, light_run par s l = Ok s' -> bulb_at s h j b ->
  (forall i, In i l -> active i h) -> (Z.of_nat (length l) < b_left b)%Z ->
  exists b', bulb_at s' h j b' /\ same_bulb b b' /\ b_left b' = (b_left b - Z.of_nat (length l))%Z.
Proof.
  intros par. induction l as [|i l IH]; intros s s' h j b H Hb Ha Hl; simpl in H.
  - injection H as <-. exists b. split; [exact Hb|]. split; [repeat split|simpl; lia].
  - destruct (light_do par s i) as [s1|] eqn:E; simpl in H; [|discriminate].
    destruct (Ha i (or_introl eq_refl)) as (n & Hn & Hpos). cbn [length] in Hl.
    destruct (light_step_at par s i s1 h j b n E Hb Hn ltac:(lia)) as (b1 & B1 & (E1 & E2 & E3) & _ & K & _).
    assert (L : less_one (b_left b) = (b_left b - 1)%Z) by (unfold less_one; destruct (Z.ltb_spec 0 (b_left b)); lia).
    rewrite L in K. specialize (K Hpos ltac:(lia)).
    destruct (IH s1 s' h j b1 H B1 (fun i' Hi => Ha i' (or_intror Hi)) ltac:(lia)) as (b2 & B2 & (F1 & F2 & F3) & F4).
    exists b2. split; [exact B2|]. split; [repeat split; congruence|]. cbn [length]. lia.
Qed.

Lemma light_run_app : forall par l1 l2 s, light_run par s (l1 ++ l2) = bind (light_run par s l1) (fun s1 => light_run par s1 l2).
Proof.
  intros par. induction l1 as [|i l1 IH]; intros l2 s; simpl; [reflexivity|].
  destruct (light_do par s i) as [s1|]; simpl; [apply IH|reflexivity].
Qed.

(** ** Consumption *)

Lemma map2_nth_all : forall A B C (f : A -> B -> C) l m i x y, at_ l i x -> at_ m i y -> at_ (map2 f l m) i (f x y).
Proof. intros. apply at_map2. eauto. Qed.

Lemma consumption_at : forall n k s h, lights n k s -> (h < n)%nat -> exists c terms,
  at_ (light_consumption s) h c /\ c == total terms /\ length terms = k /\
  forall j, (j < k)%nat -> exists b x, bulb_at s h j b /\ at_ terms j x /\
    (forall p, b_pow b = Some p -> (0 < b_left b)%Z -> x == p) /\
    ((b_pow b = None \/ (b_left b <= 0)%Z) -> x == 0).
Proof.
  intros n k s h (S1 & S2 & S3 & S4) Hh.
  destruct (lt_at _ (l_power s) h) as [rp Hrp]. { destruct S1. lia. }
  destruct (lt_at _ (l_left s) h) as [rl Hrl]. { destruct S4. lia. }
  assert (Lp : length rp = k) by (destruct S1 as [_ S1]; eauto). assert (Ll : length rl = k) by (destruct S4 as [_ S4]; eauto).
  set (f := fun (p : option Q) t => match p with None => 0 | Some x => x * b2q (Z.ltb 0 t) end).
  exists (qsum (map2 f rp rl)), (map2 f rp rl). split.
  { unfold light_consumption. apply at_map. exists (map2 f rp rl). split; [|reflexivity]. unfold mmap2. apply at_map2. exists rp, rl. auto. }
  split; [rewrite (total_qsum (map2 f rp rl)); reflexivity|]. split; [rewrite map2_length; lia|].
  intros j Hj. destruct (lt_at _ rp j) as [p Hp]; [lia|]. destruct (lt_at _ rl j) as [t Ht]; [lia|].
  destruct (shaped_at2 _ _ _ _ _ _ S2 Hh Hj) as [u Hu]. destruct (lt_at _ (l_thr s) h) as [th Hth]; [lia|].
  exists (Bulb p u th t), (f p t). split. { split; [exists rp; auto|]. split; [exact Hu|]. split; [exact Hth|exists rl; auto]. }
  split; [apply map2_nth_all; assumption|]. cbn [b_pow b_left]. split.
  - intros q -> Hpos. unfold f. destruct (Z.ltb_spec 0 t); [simpl; ring|lia].
  - intros [->|Hle]; [reflexivity|]. unfold f. destruct p; [|reflexivity]. destruct (Z.ltb_spec 0 t); [lia|]. simpl. ring.
Qed.

Lemma light_step_lights : forall n k par s i s', lights n k s -> light_do par s i = Ok s' -> lights n k s' /\ length (in_occ i) = n.
Proof.
  intros n k par s [d occ irr] s' (S1 & S2 & S3 & S4) H. unfold light_do, light_step in H. simpl in H.
  destruct (active_to_effective par occ) as [eff|]; simpl in H; [|discriminate].
  match type of H with bind (mapM ?f ?l) _ = _ => destruct (mapM f l) as [dec|] end; simpl in H; [|discriminate].
  destruct (match p_cdf par with [] => true | _ => false end); [discriminate|].
  match type of H with bind (mapM ?f ?l) _ = _ => destruct (mapM f l) as [ds|] end; simpl in H; [|discriminate].
  match type of H with bind (mput ?kv ?l) _ = _ => destruct (mput kv l) as [left2|] eqn:Ep end; simpl in H; [|discriminate].
  destruct (Nat.eqb_spec (length occ) (length left2)) as [El|]; simpl in H; [|discriminate]. injection H as <-.
  apply mput_ok in Ep. destruct Ep as (_ & _ & P3). specialize (P3 n k (shaped_map _ _ _ _ _ _ S4)).
  split; [|destruct P3; simpl; lia]. split; [exact S1|]. split; [exact S2|]. split; [exact S3|]. simpl.
  destruct P3 as [P3 P4]. split; [rewrite map2_length; lia|]. intros h row Hr. apply at_map2 in Hr. destruct Hr as (m & r & _ & Hr & ->).
  destruct (m =? 0)%Z; rewrite ?map_length; eauto.
Qed.

Lemma light_run_lights : forall n k par l s s', lights n k s -> light_run par s l = Ok s' -> lights n k s'.
Proof.
  intros n k par. induction l as [|i l IH]; intros s s' Hs H; simpl in H; [injection H as <-; exact Hs|].
  destruct (light_do par s i) as [s1|] eqn:E; simpl in H; [|discriminate].
  eapply IH; [eapply light_step_lights; eauto|exact H].
Qed.

(** A step raises nothing when the data covers the numbers of occupants. *)
Lemma light_step_total : forall n k par s i, lights n k s -> length (in_occ i) = n ->
  (forall h m, at_ (in_occ i) h m -> (0 <= m < Z.of_nat (length (p_eff par)))%Z) ->
  p_cdf par <> [] -> (length (p_cdf par) <= length (p_low par))%nat -> (length (p_cdf par) <= length (p_high par))%nat ->
  exists s', light_do par s i = Ok s'.
Proof.
  intros n k par s [d occ irr] (S1 & S2 & S3 & S4) Hocc Hin Hc Hl Hh. unfold light_do, light_step. simpl in *.
  assert (E : exists eff, active_to_effective par occ = Ok eff).
  { apply mapM_total. intros m Hm. apply in_at in Hm. destruct Hm as [h Hm]. specialize (Hin h m Hm). unfold py_index.
    destruct (Z.leb_spec 0 m); [|lia]. destruct (Z.ltb_spec m (Z.of_nat (length (p_eff par)))); [|lia]. simpl.
    destruct (lt_at _ (p_eff par) (Z.to_nat m)) as [e He]; [lia|]. exists e. now apply vget_ok. }
  destruct E as [eff Ee]. rewrite Ee. simpl. destruct (mapM_ok _ _ _ _ _ Ee) as [Elen _].
  set (left1 := map (map (fun t => if (0 <? t)%Z then Z.pred t else t)) (l_left s)).
  assert (SL : shaped n k left1) by (now apply shaped_map).
  set (idx := where2 _).
  assert (Hidx : forall h j, In (h, j) idx -> (h < n /\ j < k)%nat).
  { intros h j Hi. unfold idx in Hi. apply where2_in in Hi. apply at2_mmap2 in Hi. destruct Hi as (x & y & _ & Hy & _).
    apply at2_map in Hy. destruct Hy as (t & Ht & _). exact (at2_shaped _ _ _ _ _ _ _ SL Ht). }
  match goal with |- context [bind (mapM ?f idx) _] => change f with (decide par s d eff) end.
  assert (M1 : exists dec, mapM (decide par s d eff) idx = Ok dec).
  { apply mapM_total. intros [h j] Hi. destruct (Hidx h j Hi) as [H1 H2]. unfold decide. cbn [fst snd].
    destruct (lt_at _ eff h) as [e He]; [lia|]. apply vget_ok in He. rewrite He.
    destruct (shaped_at2 _ _ _ _ _ _ S2 H1 H2) as [u Hu]. apply mget_ok in Hu. rewrite Hu. simpl. eauto. }
  destruct M1 as [dec Ed]. rewrite Ed. simpl.
  destruct (p_cdf par) as [|c0 cdf0] eqn:Ecdf; [congruence|]. rewrite <- Ecdf in *.
  match goal with |- context [bind (mapM ?f ?l) _] => assert (M2 : exists ds, mapM f l = Ok ds) end.
  { apply mapM_total. intros [h j] _. cbn [fst snd]. unfold draw_duration.
    destruct (mc_one_total (p_cdf par) (d_int d h j)) as (m & -> & Hm); [congruence|]. simpl.
    destruct (lt_at _ (p_low par) m) as [lo Hlo]; [lia|]. destruct (lt_at _ (p_high par) m) as [hi Hhi]; [lia|].
    apply vget_ok in Hlo. apply vget_ok in Hhi. rewrite Hlo. simpl. rewrite Hhi. simpl. eauto. }
  destruct M2 as [ds Es]. rewrite Es. simpl.
  assert (M3 : exists left2, mput (combine (compress dec idx) (map trunc ds)) left1 = Ok left2).
  { apply (mput_total _ _ _ n k SL). intros h j v Hv. apply in_combine_l in Hv. apply (compress_in _ _ _ _ _ Ed) in Hv. apply Hidx. tauto. }
  destruct M3 as [left2 Ep]. rewrite Ep. simpl. apply mput_ok in Ep. destruct Ep as (_ & _ & P3). destruct (P3 n k SL) as [P4 _].
  destruct (Nat.eqb_spec (length occ) (length left2)); [|lia]. simpl. eauto.
Qed.

(** ** Sampling of bulbs *)

Lemma bulbs_randn_ok : forall mean std cons pen g u m, bulbs_randn mean std cons pen g u = Ok m ->
  length m = length g /\
  exists width, (forall h row, at_ m h row -> length row = width) /\
  forall h x row, at_ g h x -> at_ m h row ->
    exists n, (1 <= n <= width)%nat /\
      (forall z, int_part (mean + std * x) z -> n = Z.to_nat (Z.max 1 z)) /\
      (forall j p, at_ row j p -> (j < n)%nat -> In p cons) /\
      (forall j p, at_ row j p -> (n <= j)%nat -> p = 0).
Proof.
  intros mean std cons pen g u m H. unfold bulbs_randn in H.
  set (ns := n_bulbs mean std g) in *.
  assert (Lns : length ns = length g) by (unfold ns, n_bulbs; apply map_length).
  assert (H' : mapM (fun hn : nat * nat => bind (mc_from_1d_pdf pen (map (u (fst hn)) (seq 0 (snd hn)))) (fun kinds =>
              bind (mapM (vget cons) kinds) (fun ps => Ok (ps ++ repeat 0 (list_max_nat ns - snd hn))))) (combine (seq 0 (length ns)) ns) = Ok m).
  { destruct ns; [discriminate|exact H]. }
  clear H. rename H' into H. destruct (mapM_ok _ _ _ _ _ H) as [Lm K].
  rewrite combine_length, seq_length, Nat.min_id in Lm.
  assert (R : forall h n row, at_ ns h n -> at_ m h row -> length row = list_max_nat ns /\ (n <= list_max_nat ns)%nat /\
     (forall j p, at_ row j p -> (j < n)%nat -> In p cons) /\ (forall j p, at_ row j p -> (n <= j)%nat -> p = 0)).
  { intros h n row Hn Hr.
    assert (Hc : nth_error (combine (seq 0 (length ns)) ns) h = Some (h, n)).
    { rewrite Parse_GroupProofs.combine_nth_error. pose proof (at_lt _ _ _ _ Hn).
      assert (S : at_ (seq 0 (length ns)) h h) by (apply at_seq; lia). unfold at_ in *. rewrite S, Hn. reflexivity. }
    destruct (K h _ Hc) as (row' & Hr' & E). rewrite (at_fun _ _ _ _ _ Hr Hr'). clear row Hr. cbn [fst snd] in E.
    unfold mc_from_1d_pdf in E. destruct (mc_from_1d_cdf (cumsum pen) (map (u h) (seq 0 n))) as [kinds|] eqn:E1; simpl in E; [|discriminate].
    destruct (mapM (vget cons) kinds) as [ps|] eqn:E2; simpl in E; [|discriminate]. injection E as <-.
    assert (Lk : length kinds = n).
    { unfold mc_from_1d_cdf in E1. destruct (cumsum pen); [discriminate|]. destruct (mapM_ok _ _ _ _ _ E1) as [E3 _].
      rewrite E3, map_length, seq_length. reflexivity. }
    destruct (mapM_ok _ _ _ _ _ E2) as [Lp K2].
    assert (Hle : (n <= list_max_nat ns)%nat) by (apply list_max_nat_ge; eapply at_in; eauto).
    split; [rewrite app_length, repeat_length; lia|]. split; [exact Hle|]. split.
    - intros j p Hp Hj. unfold at_ in Hp. rewrite nth_error_app1 in Hp by lia.
      destruct (lt_at _ kinds j) as [kd Hkd]; [lia|]. destruct (K2 _ _ Hkd) as (p' & Hp' & Ev). apply vget_ok in Ev.
      rewrite Hp in Hp'. injection Hp' as <-. eapply at_in; eauto.
    - intros j p Hp Hj. unfold at_ in Hp. rewrite nth_error_app2 in Hp by lia. apply nth_error_In in Hp. now apply repeat_spec in Hp. }
  split; [lia|]. exists (list_max_nat ns). split.
  - intros h row Hr. destruct (lt_at _ ns h) as [n Hn]. { apply at_lt in Hr. lia. } eapply R; eauto.
  - intros h x row Hx Hr.
    assert (Hn : at_ ns h (Z.to_nat (Z.max 1 (trunc (mean + std * x))))). { unfold ns, n_bulbs. apply at_map. exists x. auto. }
    destruct (R _ _ _ Hn Hr) as (R1 & R2 & R3 & R4). eexists. split; [split; [|exact R2]; lia|]. split; [|split; assumption].
    intros z Hz. rewrite (int_part_unique _ _ _ Hz (trunc_int_part _)). reflexivity.
Qed.
