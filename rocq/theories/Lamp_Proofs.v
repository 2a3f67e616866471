(** * Proofs about the older lighting simulator. *)

From Coq Require Import String List ZArith QArith Qround Bool Arith Lia Lqa.
From Verif Require Import Prelude PreludeFacts SpecBase SpecBaseFacts Parse_Model Sampling_Model Appliance_Model Appliance_Spec.
From Verif Require Import Matrix_Proofs Appliance_Proofs Light_Model Light_Spec Light_Proofs Lamp_Model Lamp_Spec.
Import ListNotations.

Open Scope Q_scope.

(** Decision of the switch-on draw at one position. *)
Definition odecide (par : lpar) (s : osim) (d : ldraws) (eff : list Q) (k : nat * nat) : result bool :=
  bind (vget eff (fst k)) (fun e => bind (mget (o_use s) (fst k) (snd k)) (fun r =>
    Ok (Qltb (d_on d (fst k) (snd k)) (e * r * p_cal par)))).

Lemma ozset_at : forall (occ : list Z) (m : list (list (option Q))) h j n x, at_ occ h n -> at2 m h j x ->
  at2 (map2 (fun (n : Z) row => if Z.eqb n 0 then map (fun _ => Some 0) row else row) occ m) h j (if Z.eqb n 0 then Some 0 else x).
Proof.
  intros occ m h j n x Hn (row & H1 & H2). eexists. split; [apply at_map2; exists n, row; split; [exact Hn|split; [exact H1|reflexivity]]|].
  destruct (n =? 0)%Z; [|exact H2]. apply at_map. exists x. auto.
Qed.

Lemma is_zero_tick : forall b, is_zero (tick (ob_left b)) = true <-> ready b.
Proof.
  intros [p u t [x|]]; unfold ready, has_left; cbn [ob_left].
  - simpl. destruct (Qltb 0 x) eqn:E; simpl; rewrite Qeq_bool_iff; [apply Qltb_lt in E|apply Qltb_ge in E]; split.
    + intro K. right. exists x. split; [reflexivity|lra].
    + intros [(y & Hy & K)|(y & Hy & K)]; injection Hy as <-; lra.
    + intro K. left. exists x. split; [reflexivity|lra].
    + intros [(y & Hy & K)|(y & Hy & K)]; injection Hy as <-; lra.
  - simpl. split; [discriminate|]. intros [(y & Hy & K)|(y & Hy & K)]; discriminate.
Qed.

Lemma tick_minute : forall b b', ob_left b' = tick (ob_left b) -> minute_less b b'.
Proof.
  intros [p u t [x|]] b' E; cbn [ob_left tick] in E; unfold minute_less, has_left; cbn [ob_left].
  - split; [discriminate|]. split; intros y (z & Hz & K) Hy; injection Hz as <-; rewrite E.
    + assert (P : Qltb 0 x = true) by (apply Qltb_lt; lra). rewrite P. exists (x - 1). split; [reflexivity|lra].
    + assert (P : Qltb 0 x = false) by (apply Qltb_ge; lra). rewrite P. exists x. split; [reflexivity|exact K].
  - split; [auto|]. split; intros y (z & Hz & K); discriminate.
Qed.

Lemma old_step_at : forall par s i s' h j b n, old_do par s i = Ok s' -> obulb_at s h j b ->
  at_ (in_occ i) h n -> (0 <= n)%Z ->
  exists b', obulb_at s' h j b' /\ same_obulb b b' /\
    (n = 0%Z -> has_left b' 0) /\
    ((0 < n)%Z -> ready b -> switches_on par i h j b -> exists q, drawn_duration par i h j q /\ has_left b' q) /\
    ((0 < n)%Z -> ~ (ready b /\ switches_on par i h j b) -> minute_less b b').
Proof.
  intros par s [d occ irr] s' h j b n H (B1 & B2 & B3 & B4) Hn H0. unfold old_do, old_step in H. simpl in H, Hn.
  destruct (Nat.eqb_spec (length occ) (length (o_power s))) as [El|]; simpl in H; [|discriminate].
  set (left1 := map (map tick) (o_left s)) in *.
  destruct (active_to_effective par occ) as [eff|] eqn:Ee; simpl in H; [|discriminate].
  set (idx := where2 _) in H.
  match type of H with bind (mapM ?f ?l) _ = _ => change f with (odecide par s d eff) in H; destruct (mapM (odecide par s d eff) l) as [dec|] eqn:Ed end;
    simpl in H; [|discriminate].
  assert (Hc : p_cdf par <> []). { intro E. rewrite E in H. discriminate. }
  destruct (match p_cdf par with [] => true | _ => false end); [discriminate|].
  match type of H with bind (mapM ?f ?l) _ = _ => destruct (mapM f l) as [ds|] eqn:Em end; simpl in H; [|discriminate].
  match type of H with bind (mput ?kv ?l) _ = _ => destruct (mput kv l) as [left2|] eqn:Ep end; simpl in H; [|discriminate].
  injection H as <-.
  destruct (active_to_effective_at par occ eff h n Ee Hn H0) as (e & He & Hee).
  assert (L1 : at2 left1 h j (tick (ob_left b))).
  { apply at2_map. exists (ob_left b). split; [exact B4|reflexivity]. }
  assert (Hidx : In (h, j) idx <-> ready b /\ (irr < ob_thr b \/ d_five d h j < 5 # 100)).
  { rewrite <- is_zero_tick. unfold idx. rewrite where2_in, at2_mmap2. split.
    - intros (x & y & Hx & Hy & Hxy). symmetry in Hxy. apply andb_true_iff in Hxy. destruct Hxy as [-> ->].
      apply at2_map in Hy. destruct Hy as (t & Ht & Et). rewrite (at2_fun _ _ _ _ _ _ Ht L1) in Et. symmetry in Et.
      split; [exact Et|]. destruct Hx as (row & Hr & Hx). apply at_map2 in Hr. destruct Hr as (t0 & row0 & Ht0 & Hr0 & ->).
      rewrite (at_fun _ _ _ _ _ Ht0 B3) in Hx. apply at_map in Hx. destruct Hx as (x0 & Hx0 & Ex). symmetry in Ex.
      assert (Hc2 : at2 (cells (fun h j (_ : option Q) => d_five d h j) (o_power s)) h j x0) by (exists row0; auto).
      apply at2_cells in Hc2. destruct Hc2 as (p & _ & ->). apply orb_true_iff in Ex. rewrite !Qltb_lt in Ex. exact Ex.
    - intros [E1 E2]. exists true, true. split; [|split; [apply at2_map; exists (tick (ob_left b)); split; [exact L1|rewrite E1; reflexivity]|reflexivity]].
      assert (Hc2 : at2 (cells (fun h j (_ : option Q) => d_five d h j) (o_power s)) h j (d_five d h j)).
      { apply at2_cells. exists (ob_pow b). auto. }
      destruct Hc2 as (row0 & Hr0 & Hx0). eexists. split; [apply at_map2; exists (ob_thr b), row0; split; [exact B3|split; [exact Hr0|reflexivity]]|].
      apply at_map. exists (d_five d h j). split; [exact Hx0|]. symmetry. apply orb_true_iff. rewrite !Qltb_lt. exact E2. }
  assert (Hon : In (h, j) (compress dec idx) <-> ready b /\ switches_on par (LIn d occ irr) h j b).
  { rewrite (compress_in _ _ _ _ (h, j) Ed). fold idx. rewrite Hidx. unfold switches_on, odecide. cbn [in_d in_occ in_irr fst snd].
    assert (G1 : vget eff h = Ok e) by (now apply vget_ok). assert (G2 : mget (o_use s) h j = Ok (ob_use b)) by (now apply mget_ok).
    rewrite G1, G2. simpl. split.
    - intros [[A1 A2] A3]. split; [exact A1|]. split; [exact A2|]. exists n, e. injection A3 as A3. apply Qltb_lt in A3. auto.
    - intros [A1 [A2 (n' & e' & A3 & A4 & A5)]]. split; [auto|]. rewrite (at_fun _ _ _ _ _ A3 Hn) in A4.
      rewrite (at_fun _ _ _ _ _ A4 Hee) in A5. apply Qltb_lt in A5. now rewrite A5. }
  destruct (mapM_ok _ _ _ _ _ Em) as [Elen Kd].
  assert (Hkeys : map fst (combine (compress dec idx) (map Some ds)) = compress dec idx).
  { clear -Elen. revert ds Elen. generalize (compress dec idx). induction l as [|a l IH]; intros [|q ds] E; simpl in *; try lia; [reflexivity|].
    f_equal. apply IH. lia. }
  apply mput_ok in Ep. destruct Ep as (P1 & P2 & _). rewrite Hkeys in P2.
  assert (L2 : exists x, at2 left2 h j x /\
     ((ready b /\ switches_on par (LIn d occ irr) h j b) -> exists q, drawn_duration par (LIn d occ irr) h j q /\ x = Some q) /\
     (~ (ready b /\ switches_on par (LIn d occ irr) h j b) -> x = tick (ob_left b))).
  { assert (DEC : forall k k' : nat * nat, {k = k'} + {k <> k'}) by (intros [a1 a2] [c1 c2]; decide equality; apply Nat.eq_dec).
    destruct (in_dec DEC (h, j) (compress dec idx)) as [Hin|Hout].
    - assert (Hk : exists v, In ((h, j), v) (combine (compress dec idx) (map Some ds))).
      { rewrite <- Hkeys in Hin. apply in_map_iff in Hin. destruct Hin as ([k v] & E & Hin). simpl in E. subst k. eauto. }
      destruct (P1 h j Hk) as (v & Hv & Hat). exists v. split; [exact Hat|]. split; [|intro N; exfalso; apply N, Hon, Hin]. intros _.
      assert (Hq : exists q, v = Some q /\ draw_duration par (d_int d h j) (d_pos d h j) = Ok q).
      { apply In_nth_error in Hv. destruct Hv as [m Hm].
        assert (Hl : forall (X Y : Type) (a : list X) (c : list Y) m x y, nth_error (combine a c) m = Some (x, y) ->
                     nth_error a m = Some x /\ nth_error c m = Some y).
        { clear. intros X Y. induction a as [|x0 a IH]; intros [|y0 c] [|m] x y E; simpl in *; try discriminate; [split; congruence|]. apply IH. exact E. }
        apply Hl in Hm. destruct Hm as [M1 M2]. rewrite nth_error_map in M2. destruct (nth_error ds m) as [q|] eqn:Eq; simpl in M2; [|discriminate].
        injection M2 as <-. exists q. split; [reflexivity|]. destruct (Kd _ _ M1) as (y & Hy & Ey). simpl in Ey. rewrite Eq in Hy. congruence. }
      destruct Hq as (q & -> & Hq). exists q. split; [apply (draw_duration_ok par (LIn d occ irr)); exact Hq|reflexivity].
    - exists (tick (ob_left b)). split; [apply P2; assumption|]. split; [intro N; exfalso; apply Hout, Hon, N|reflexivity]. }
  destruct L2 as (x & Hx & X1 & X2).
  exists (OBulb (ob_pow b) (ob_use b) (ob_thr b) (if (n =? 0)%Z then Some 0 else x)).
  split. { split; [exact B1|]. split; [exact B2|]. split; [exact B3|]. simpl. apply ozset_at; assumption. }
  split; [repeat split|].
  assert (Nz : (0 < n)%Z -> (n =? 0)%Z = false) by (intro; apply Z.eqb_neq; lia).
  split; [intros ->; exists 0; split; reflexivity|].
  split.
  - intros P R D. destruct (X1 (conj R D)) as (q & Q1 & ->). exists q. split; [exact Q1|]. exists q. cbn [ob_left]. rewrite (Nz P). split; reflexivity.
  - intros P N. apply tick_minute. cbn [ob_left]. rewrite (Nz P). apply X2. exact N.
Qed.

(** ** Shapes *)

Lemma old_step_lights : forall n k par s i s', old_lights n k s -> old_do par s i = Ok s' -> old_lights n k s' /\ length (in_occ i) = n.
Proof.
  intros n k par s [d occ irr] s' (S1 & S2 & S3 & S4) H. unfold old_do, old_step in H. simpl in H.
  destruct (Nat.eqb_spec (length occ) (length (o_power s))) as [El|]; simpl in H; [|discriminate].
  destruct (active_to_effective par occ) as [eff|]; simpl in H; [|discriminate].
  match type of H with bind (mapM ?f ?l) _ = _ => destruct (mapM f l) as [dec|] end; simpl in H; [|discriminate].
  destruct (match p_cdf par with [] => true | _ => false end); [discriminate|].
  match type of H with bind (mapM ?f ?l) _ = _ => destruct (mapM f l) as [ds|] end; simpl in H; [|discriminate].
  match type of H with bind (mput ?kv ?l) _ = _ => destruct (mput kv l) as [left2|] eqn:Ep end; simpl in H; [|discriminate].
  injection H as <-.
  apply mput_ok in Ep. destruct Ep as (_ & _ & P3). specialize (P3 n k (shaped_map _ _ _ _ _ _ S4)).
  split; [|destruct S1; simpl; lia]. split; [exact S1|]. split; [exact S2|]. split; [exact S3|]. simpl.
  destruct P3 as [P3 P4]. destruct S1 as [S1 _]. split; [rewrite map2_length; lia|]. intros h row Hr. apply at_map2 in Hr. destruct Hr as (m & r & _ & Hr & ->).
  destruct (m =? 0)%Z; rewrite ?map_length; eauto.
Qed.

Lemma old_run_lights : forall n k par l s s', old_lights n k s -> old_run par s l = Ok s' -> old_lights n k s'.
Proof.
  intros n k par. induction l as [|i l IH]; intros s s' Hs H; simpl in H; [injection H as <-; exact Hs|].
  destruct (old_do par s i) as [s1|] eqn:E; simpl in H; [|discriminate].
  eapply IH; [eapply old_step_lights; eauto|exact H].
Qed.

Lemma old_step_total : forall n k par s i, old_lights n k s -> length (in_occ i) = n ->
  (forall h m, at_ (in_occ i) h m -> (0 <= m < Z.of_nat (length (p_eff par)))%Z) ->
  p_cdf par <> [] -> (length (p_cdf par) <= length (p_low par))%nat -> (length (p_cdf par) <= length (p_high par))%nat ->
  exists s', old_do par s i = Ok s'.
Proof.
  intros n k par s [d occ irr] (S1 & S2 & S3 & S4) Hocc Hin Hc Hl Hh. unfold old_do, old_step. simpl in *.
  destruct (Nat.eqb_spec (length occ) (length (o_power s))) as [El|El]; simpl; [|exfalso; apply El; destruct S1; lia].
  assert (E : exists eff, active_to_effective par occ = Ok eff).
  { apply mapM_total. intros m Hm. apply in_at in Hm. destruct Hm as [h Hm]. specialize (Hin h m Hm). unfold py_index.
    destruct (Z.leb_spec 0 m); [|lia]. destruct (Z.ltb_spec m (Z.of_nat (length (p_eff par)))); [|lia]. simpl.
    destruct (lt_at _ (p_eff par) (Z.to_nat m)) as [e He]; [lia|]. exists e. now apply vget_ok. }
  destruct E as [eff Ee]. rewrite Ee. simpl. destruct (mapM_ok _ _ _ _ _ Ee) as [Elen _].
  set (left1 := map (map tick) (o_left s)).
  assert (SL : shaped n k left1) by (now apply shaped_map).
  set (idx := where2 _).
  assert (Hidx : forall h j, In (h, j) idx -> (h < n /\ j < k)%nat).
  { intros h j Hi. unfold idx in Hi. apply where2_in in Hi. apply at2_mmap2 in Hi. destruct Hi as (x & y & _ & Hy & _).
    apply at2_map in Hy. destruct Hy as (t & Ht & _). exact (at2_shaped _ _ _ _ _ _ _ SL Ht). }
  match goal with |- context [bind (mapM ?f idx) _] => change f with (odecide par s d eff) end.
  assert (M1 : exists dec, mapM (odecide par s d eff) idx = Ok dec).
  { apply mapM_total. intros [h j] Hi. destruct (Hidx h j Hi) as [H1 H2]. unfold odecide. cbn [fst snd].
    destruct (lt_at _ eff h) as [e He]; [lia|]. apply vget_ok in He. rewrite He.
    destruct (shaped_at2 _ _ _ _ _ _ S2 H1 H2) as [u Hu]. apply mget_ok in Hu. rewrite Hu. simpl. eauto. }
  destruct M1 as [dec Ed]. rewrite Ed. simpl.
  destruct (p_cdf par) as [|c0 cdf0] eqn:Ecdf; [congruence|]. rewrite <- Ecdf in *.
  match goal with |- context [bind (mapM ?f ?l) _] => assert (M2 : exists ds, mapM f l = Ok ds) end.
  { apply mapM_total. intros [h j] _. cbn [fst snd]. unfold draw_duration.
    destruct (mc_one_total (p_cdf par) (d_int d h j)) as (m & -> & Hm); [congruence|]. simpl.
    destruct (lt_at _ (p_low par) m) as [lo Hlo]; [lia|]. destruct (lt_at _ (p_high par) m) as [hi Hhi]; [lia|].
    apply vget_ok in Hlo. apply vget_ok in Hhi. rewrite Hlo. simpl. rewrite Hhi. simpl. eauto. }
  destruct M2 as [ds Es]. rewrite Es. simpl.
  assert (M3 : exists left2, mput (combine (compress dec idx) (map Some ds)) left1 = Ok left2).
  { apply (mput_total _ _ _ n k SL). intros h j v Hv. apply in_combine_l in Hv. apply (compress_in _ _ _ _ _ Ed) in Hv. apply Hidx. tauto. }
  destruct M3 as [left2 Ep]. rewrite Ep. simpl. eauto.
Qed.

(** ** Runs *)

Lemma has_left_fun : forall b t u, has_left b t -> has_left b u -> t == u.
Proof. intros b t u (x & Hx & X) (y & Hy & Y). rewrite Hx in Hy. injection Hy as <-. lra. Qed.
Lemma has_left_eq : forall b t u, has_left b t -> t == u -> has_left b u.
Proof. intros b t u (x & Hx & X) E. exists x. split; [exact Hx|lra]. Qed.

Lemma obulb_left_fun : forall s h j b c, obulb_at s h j b -> obulb_at s h j c -> ob_left b = ob_left c.
Proof. intros s h j b c (_ & _ & _ & H1) (_ & _ & _ & H2). exact (at2_fun _ _ _ _ _ _ H1 H2). Qed.

Lemma same_trans : forall a b c, same_obulb a b -> same_obulb b c -> same_obulb a c.
Proof. intros a b c (A1 & A2 & A3) (B1 & B2 & B3). repeat split; congruence. Qed.

(** While the time left is more than the steps taken, it goes down by one each. *)
Lemma old_run_left : forall par l s s' h j b t, old_run par s l = Ok s' -> obulb_at s h j b -> has_left b t ->
  (forall i, In i l -> active i h) -> inject_Z (Z.of_nat (length l)) < t ->
  exists b', obulb_at s' h j b' /\ same_obulb b b' /\ has_left b' (t - inject_Z (Z.of_nat (length l))).
Proof.
  intros par. induction l as [|i l IH]; intros s s' h j b t H Hb Ht Ha Hl; simpl in H.
  - injection H as <-. exists b. split; [exact Hb|]. split; [repeat split|]. eapply has_left_eq; [exact Ht|]. simpl. ring.
  - destruct (old_do par s i) as [s1|] eqn:E; simpl in H; [|discriminate].
    destruct (Ha i (or_introl eq_refl)) as (n & Hn & Hpos). cbn [length] in Hl |- *.
    rewrite Nat2Z.inj_succ, <- Z.add_1_r, inject_Z_plus in Hl |- *. change (inject_Z 1) with 1 in *.
    assert (L0 : 0 <= inject_Z (Z.of_nat (length l))). { change 0 with (inject_Z 0). rewrite <- Zle_Qle. lia. }
    destruct (old_step_at par s i s1 h j b n E Hb Hn ltac:(lia)) as (b1 & B1 & E1 & _ & _ & K).
    assert (NR : ~ (ready b /\ switches_on par i h j b)).
    { intros [[R|R] _]; pose proof (has_left_fun _ _ _ Ht R); lra. }
    destruct (K Hpos NR) as (_ & K1 & _). specialize (K1 t Ht ltac:(lra)).
    destruct (IH s1 s' h j b1 (t - 1) H B1 K1 (fun i' Hi => Ha i' (or_intror Hi)) ltac:(lra)) as (b2 & B2 & F & F4).
    exists b2. split; [exact B2|]. split; [exact (same_trans _ _ _ E1 F)|]. eapply has_left_eq; [exact F4|]. ring.
Qed.

Lemma old_run_app : forall par l1 l2 s, old_run par s (l1 ++ l2) = bind (old_run par s l1) (fun s1 => old_run par s1 l2).
Proof.
  intros par. induction l1 as [|i l1 IH]; intros l2 s; simpl; [reflexivity|].
  destruct (old_do par s i) as [s1|]; simpl; [apply IH|reflexivity].
Qed.

(** A time below zero does not change while somebody is at home. *)
Lemma old_run_negative : forall par l s s' h j b t, old_run par s l = Ok s' -> obulb_at s h j b -> has_left b t -> t < 0 ->
  (forall i, In i l -> active i h) ->
  exists b', obulb_at s' h j b' /\ same_obulb b b' /\ has_left b' t.
Proof.
  intros par. induction l as [|i l IH]; intros s s' h j b t H Hb Ht Hneg Ha; simpl in H.
  - injection H as <-. exists b. split; [exact Hb|]. split; [repeat split|exact Ht].
  - destruct (old_do par s i) as [s1|] eqn:E; simpl in H; [|discriminate].
    destruct (Ha i (or_introl eq_refl)) as (n & Hn & Hpos).
    destruct (old_step_at par s i s1 h j b n E Hb Hn ltac:(lia)) as (b1 & B1 & E1 & _ & _ & K).
    assert (NR : ~ (ready b /\ switches_on par i h j b)).
    { intros [[R|R] _]; pose proof (has_left_fun _ _ _ Ht R); lra. }
    destruct (K Hpos NR) as (_ & _ & K1). specialize (K1 t Ht ltac:(lra)).
    destruct (IH s1 s' h j b1 t H B1 K1 Hneg (fun i' Hi => Ha i' (or_intror Hi))) as (b2 & B2 & F & F4).
    exists b2. split; [exact B2|]. split; [exact (same_trans _ _ _ E1 F)|exact F4].
Qed.

(** A bulb with a time that is not a whole number: lit as long as the steps are fewer than the
    time, dark after that whatever is drawn. *)
Lemma old_run_fraction : forall par l s s' h j b t, old_run par s l = Ok s' -> obulb_at s h j b -> has_left b t -> fractional t ->
  0 < t -> (forall i, In i l -> active i h) -> (olit s' h j <-> inject_Z (Z.of_nat (length l)) < t).
Proof.
  intros par l s s' h j b t H Hb Ht Hf Hpos Ha. split.
  - intros (b' & t' & Hb' & Ht' & Hlit). destruct (Qlt_le_dec (inject_Z (Z.of_nat (length l))) t) as [|Hle]; [assumption|exfalso].
    (* number of steps for which it is lit *)
    set (z := Qfloor t).
    assert (Z1 : inject_Z z <= t) by (apply Qfloor_le). assert (Z2 : t < inject_Z (z + 1)) by (apply Qlt_floor).
    assert (Z3 : inject_Z z < t). { destruct (Qlt_le_dec (inject_Z z) t) as [|K]; [assumption|]. exfalso. apply (Hf z). lra. }
    assert (Z0 : (0 <= z)%Z). { unfold z. change 0%Z with (Qfloor 0). apply Qfloor_resp_le. lra. }
    assert (Zl : (z < Z.of_nat (length l))%Z). { rewrite Zlt_Qlt. lra. }
    rewrite <- (firstn_skipn (Z.to_nat z) l) in H. rewrite old_run_app in H.
    destruct (old_run par s (firstn (Z.to_nat z) l)) as [s1|] eqn:E1; simpl in H; [|discriminate].
    assert (Lf : Z.of_nat (length (firstn (Z.to_nat z) l)) = z) by (rewrite firstn_length; lia).
    destruct (old_run_left par _ s s1 h j b t E1 Hb Ht) as (b1 & B1 & _ & T1).
    { intros i Hi. apply Ha. rewrite <- (firstn_skipn (Z.to_nat z) l). apply in_or_app. now left. }
    { rewrite Lf. exact Z3. }
    rewrite Lf in T1.
    assert (Asuf : forall i, In i (skipn (Z.to_nat z) l) -> active i h).
    { intros i Hi. apply Ha. rewrite <- (firstn_skipn (Z.to_nat z) l). apply in_or_app. now right. }
    destruct (skipn (Z.to_nat z) l) as [|i rest] eqn:Er.
    { apply (f_equal (@length lin)) in Er. rewrite skipn_length in Er. simpl in Er. lia. }
    simpl in H. destruct (old_do par s1 i) as [s2|] eqn:E2; simpl in H; [|discriminate].
    destruct (Asuf i (or_introl eq_refl)) as (n & Hn & Hn0).
    destruct (old_step_at par s1 i s2 h j b1 n E2 B1 Hn ltac:(lia)) as (b2 & B2 & _ & _ & _ & K).
    rewrite inject_Z_plus in Z2. change (inject_Z 1) with 1 in Z2.
    assert (NR : ~ (ready b1 /\ switches_on par i h j b1)).
    { intros [[R|R] _]; pose proof (has_left_fun _ _ _ T1 R) as F; [lra|]. apply (Hf (z + 1)%Z). rewrite inject_Z_plus. change (inject_Z 1) with 1. lra. }
    destruct (K Hn0 NR) as (_ & K1 & _). specialize (K1 _ T1 ltac:(lra)).
    destruct (old_run_negative par rest s2 s' h j b2 _ H B2 K1 ltac:(lra) (fun i' Hi => Asuf i' (or_intror Hi))) as (b3 & B3 & _ & T3).
    unfold has_left in Ht'. rewrite (obulb_left_fun _ _ _ _ _ Hb' B3) in Ht'. change (has_left b3 t') in Ht'.
    pose proof (has_left_fun _ _ _ T3 Ht'). lra.
  - intro Hlt. destruct (old_run_left par l s s' h j b t H Hb Ht Ha Hlt) as (b' & B & _ & T). exists b', (t - inject_Z (Z.of_nat (length l))). repeat split; auto; try apply B; try exact T. lra.
Qed.

(** ** Consumption *)

Lemma old_consumption_at : forall n k s h, old_lights n k s -> (h < n)%nat -> exists c terms,
  at_ (old_consumption s) h c /\ c == total terms /\ length terms = k /\
  forall j, (j < k)%nat -> exists b x, obulb_at s h j b /\ at_ terms j x /\
    (forall p, ob_pow b = Some p -> olit s h j -> x == p) /\
    ((ob_pow b = None \/ ~ olit s h j) -> x == 0).
Proof.
  intros n k s h (S1 & S2 & S3 & S4) Hh.
  destruct (lt_at _ (o_power s) h) as [rp Hrp]. { destruct S1. lia. }
  destruct (lt_at _ (o_left s) h) as [rl Hrl]. { destruct S4. lia. }
  assert (Lp : length rp = k) by (destruct S1 as [_ S1]; eauto). assert (Ll : length rl = k) by (destruct S4 as [_ S4]; eauto).
  set (f := fun (p t : option Q) => match p with None => 0 | Some x => x * b2q (match t with None => false | Some y => Qltb 0 y end) end).
  exists (qsum (map2 f rp rl)), (map2 f rp rl). split.
  { unfold old_consumption. apply at_map. exists (map2 f rp rl). split; [|reflexivity]. unfold mmap2. apply at_map2. exists rp, rl. auto. }
  split; [rewrite (total_qsum (map2 f rp rl)); reflexivity|]. split; [rewrite map2_length; lia|].
  intros j Hj. destruct (lt_at _ rp j) as [p Hp]; [lia|]. destruct (lt_at _ rl j) as [t Ht]; [lia|].
  destruct (shaped_at2 _ _ _ _ _ _ S2 Hh Hj) as [u Hu]. destruct (lt_at _ (o_thr s) h) as [th Hth]; [lia|].
  assert (B : obulb_at s h j (OBulb p u th t)). { split; [exists rp; auto|]. split; [exact Hu|]. split; [exact Hth|exists rl; auto]. }
  exists (OBulb p u th t), (f p t). split; [exact B|]. split; [apply map2_nth_all; assumption|]. cbn [ob_pow].
  assert (L : (match t with None => false | Some y => Qltb 0 y end) = true <-> olit s h j).
  { split.
    - intro E. destruct t as [y|]; [|discriminate]. apply Qltb_lt in E. exists (OBulb p u th (Some y)), y. split; [exact B|]. split; [exists y; split; reflexivity|exact E].
    - intros (b & y & Hb & (z & Hz & Ez) & Hy). rewrite (obulb_left_fun _ _ _ _ _ Hb B) in Hz. cbn [ob_left] in Hz. rewrite Hz. apply Qltb_lt. lra. }
  split.
  - intros q -> Hl. apply L in Hl. unfold f. rewrite Hl. simpl. ring.
  - intros [->|Hn]; [reflexivity|]. unfold f. destruct p; [|reflexivity].
    destruct (match t with None => false | Some y => Qltb 0 y end); [exfalso; apply Hn, L; reflexivity|]. simpl. ring.
Qed.

(** ** Sampled bulbs *)

Lemma zmax_from_ge : forall l z, (z <= zmax_list z l)%Z /\ forall x, In x l -> (x <= zmax_list z l)%Z.
Proof.
  induction l as [|y l IH]; intros z; simpl; [split; [lia|contradiction]|]. unfold zmax_list in *. simpl. destruct (IH (Z.max z y)) as [I1 I2].
  split; [lia|]. intros x [->|Hx]; [lia|auto].
Qed.
Lemma zmax_from_in : forall l z, zmax_list z l = z \/ In (zmax_list z l) l.
Proof.
  induction l as [|y l IH]; intros z; simpl; [auto|]. unfold zmax_list in *. simpl. destruct (IH (Z.max z y)) as [E|E]; [|auto].
  rewrite E. destruct (Z.max_spec z y) as [[_ ->]|[_ ->]]; auto.
Qed.

Lemma old_sample_ok : forall mean std cons pen g u m, old_sample mean std cons pen g u = Ok m ->
  (exists x z, In x g /\ int_part (mean + std * x) z /\ (1 <= z)%Z) ->
  length m = length g /\
  exists width, (forall h row, at_ m h row -> length row = width) /\
  forall h x row, at_ g h x -> at_ m h row ->
    exists n, (1 <= n <= width)%nat /\
      (forall z, int_part (mean + std * x) z -> n = Z.to_nat (Z.max 1 z)) /\
      (forall j p, at_ row j p -> (j < n)%nat -> In p cons) /\
      (forall j p, at_ row j p -> (n <= j)%nat -> p = 0).
Proof.
  intros mean std cons pen g u m H (x0 & z0 & Hx0 & Hz0 & Hpos). unfold old_sample in H.
  destruct (Nat.eqb (length pen) (length cons)); cbn [negb] in H; [|discriminate].
  set (ns := map (fun x => trunc (mean + std * x)) g) in *.
  assert (Lns : length ns = length g) by (unfold ns; apply map_length).
  assert (Hin0 : In z0 ns). { unfold ns. apply in_map_iff. exists x0. split; [|exact Hx0]. exact (int_part_unique _ _ _ (trunc_int_part _) Hz0). }
  destruct ns as [|z t] eqn:Ens; [contradiction|]. set (width := zmax_list z t) in *.
  assert (Wge : forall y, In y (z :: t) -> (y <= width)%Z). { destruct (zmax_from_ge t z) as [G1 G2]. intros y [<-|Hy]; [exact G1|exact (G2 y Hy)]. }
  assert (W1 : (1 <= width)%Z). { specialize (Wge _ Hin0). lia. }
  destruct (Z.ltb_spec width 0); [lia|]. rewrite <- Ens in *. destruct (mapM_ok _ _ _ _ _ H) as [Lm K].
  rewrite combine_length, seq_length, Nat.min_id in Lm.
  assert (R : forall h y row, at_ ns h y -> at_ m h row -> length row = Z.to_nat width /\ (Z.to_nat (Z.max y 1) <= Z.to_nat width)%nat /\
     (forall j p, at_ row j p -> (j < Z.to_nat (Z.max y 1))%nat -> In p cons) /\ (forall j p, at_ row j p -> (Z.to_nat (Z.max y 1) <= j)%nat -> p = 0)).
  { intros h y row Hn Hr.
    assert (Hc : nth_error (combine (seq 0 (length ns)) ns) h = Some (h, y)).
    { rewrite Parse_GroupProofs.combine_nth_error. pose proof (at_lt _ _ _ _ Hn).
      assert (S : at_ (seq 0 (length ns)) h h) by (apply at_seq; lia). unfold at_ in *. rewrite S, Hn. reflexivity. }
    destruct (K h _ Hc) as (row' & Hr' & E). rewrite (at_fun _ _ _ _ _ Hr Hr'). clear row Hr. cbn [fst snd] in E.
    set (n := Z.to_nat (Z.max y 1)) in *.
    assert (Hle : (n <= Z.to_nat width)%nat). { unfold n. specialize (Wge y (at_in _ _ _ _ Hn)). lia. }
    unfold mc_from_1d_pdf in E. destruct (mc_from_1d_cdf (cumsum pen) (map (u h) (seq 0 n))) as [kinds|] eqn:E1; simpl in E; [|discriminate].
    destruct (mapM (vget cons) kinds) as [ps|] eqn:E2; simpl in E; [|discriminate].
    assert (Lk : length kinds = n).
    { unfold mc_from_1d_cdf in E1. destruct (cumsum pen); [discriminate|]. destruct (mapM_ok _ _ _ _ _ E1) as [E3 _].
      rewrite E3, map_length, seq_length. reflexivity. }
    destruct (mapM_ok _ _ _ _ _ E2) as [Lp K2].
    rewrite firstn_all2 in E by (rewrite app_length, repeat_length; lia). injection E as <-.
    split; [rewrite app_length, repeat_length; lia|]. split; [exact Hle|]. split.
    - intros j p Hp Hj. unfold at_ in Hp. rewrite nth_error_app1 in Hp by lia.
      destruct (lt_at _ kinds j) as [kd Hkd]; [lia|]. destruct (K2 _ _ Hkd) as (p' & Hp' & Ev). apply vget_ok in Ev.
      rewrite Hp in Hp'. injection Hp' as <-. eapply at_in; eauto.
    - intros j p Hp Hj. unfold at_ in Hp. rewrite nth_error_app2 in Hp by lia. apply nth_error_In in Hp. now apply repeat_spec in Hp. }
  split; [lia|]. exists (Z.to_nat width). split.
  - intros h row Hr. destruct (lt_at _ ns h) as [n Hn]. { apply at_lt in Hr. lia. } eapply R; eauto.
  - intros h x row Hx Hr.
    assert (Hn : at_ ns h (trunc (mean + std * x))). { apply at_map. exists x. auto. }
    destruct (R _ _ _ Hn Hr) as (R1 & R2 & R3 & R4). eexists. split; [split; [|exact R2]; lia|]. split; [|split; assumption].
    intros z' Hz. rewrite (int_part_unique _ _ _ Hz (trunc_int_part _)). rewrite Z.max_comm. reflexivity.
Qed.

(** Nobody gets a bulb when every number drawn is zero. *)
Lemma old_sample_none : forall mean std cons pen g u, length pen = length cons -> pen <> [] -> g <> [] ->
  (forall x, In x g -> exists z, int_part (mean + std * x) z /\ (z <= 0)%Z) ->
  ((exists x, In x g /\ int_part (mean + std * x) 0) -> old_sample mean std cons pen g u = Ok (map (fun _ => []) g)) /\
  ((forall x, In x g -> ~ int_part (mean + std * x) 0) -> old_sample mean std cons pen g u = Err ValueError).
Proof.
  intros mean std cons pen g u Lc Np Ng Hz. unfold old_sample. rewrite Lc, Nat.eqb_refl. cbn [negb].
  set (ns := map (fun x => trunc (mean + std * x)) g) in *.
  assert (Lns : length ns = length g) by (unfold ns; apply map_length).
  assert (Hle : forall y, In y ns -> (y <= 0)%Z).
  { intros y Hy. unfold ns in Hy. apply in_map_iff in Hy. destruct Hy as (x & <- & Hx). destruct (Hz x Hx) as (z & Z1 & Z2).
    rewrite (int_part_unique _ _ _ (trunc_int_part _) Z1). exact Z2. }
  destruct ns as [|z t] eqn:Ens; [destruct g; [congruence|discriminate]|].
  set (width := zmax_list z t) in *.
  assert (Win : In width (z :: t)). { destruct (zmax_from_in t z) as [E|E]; [left; symmetry; exact E|right; exact E]. }
  split.
  - intros (x & Hx & Hx0).
    assert (I0 : In 0%Z (z :: t)). { rewrite <- Ens. unfold ns. apply in_map_iff. exists x. split; [|exact Hx]. exact (int_part_unique _ _ _ (trunc_int_part _) Hx0). }
    assert (W0 : width = 0%Z).
    { assert (0 <= width)%Z. { destruct (zmax_from_ge t z) as [G1 G2]. destruct I0 as [E0|I0]; [fold width in G1; lia|exact (G2 0%Z I0)]. } specialize (Hle _ Win). lia. }
    rewrite W0. cbn [Z.ltb Z.compare]. rewrite <- Ens in *. clear Ens Win W0 width I0.
    assert (G : forall f (l : list (nat * Z)), (forall a, In a l -> f a = Ok ([] : list Q)) -> mapM f l = Ok (map (fun _ => []) l)).
    { intros f. induction l as [|a l IH]; intros Hf; [reflexivity|]. cbn [mapM map]. rewrite (Hf a (or_introl eq_refl)). cbn [bind].
      rewrite IH by (intros; apply Hf; now right). reflexivity. }
    assert (MC : forall A (l : list A), map (fun _ => [] : list Q) l = repeat [] (length l)).
    { intros A. induction l as [|a l IH]; [reflexivity|]. simpl. now rewrite IH. }
    rewrite G; [rewrite !MC, combine_length, seq_length, Nat.min_id, Lns; reflexivity|].
    intros [h y] Ha. cbn [fst snd]. apply in_combine_r in Ha. specialize (Hle y Ha). rewrite Z.max_r by lia. change (Z.to_nat 1) with 1%nat.
    cbn [seq map]. unfold mc_from_1d_pdf, mc_from_1d_cdf.
    assert (Lcs : length (cumsum pen) = length pen) by apply cumsum_length.
    destruct (cumsum pen) as [|c cs] eqn:Ec; [destruct pen; [congruence|discriminate]|]. rewrite <- Ec in *.
    destruct (mc_one_total (cumsum pen) (u h 0%nat)) as (kd & Ek & Hk); [congruence|]. cbn [mapM]. rewrite Ek. cbn [bind mapM].
    destruct (lt_at _ cons kd) as [v Hv]; [lia|]. apply vget_ok in Hv. rewrite Hv. reflexivity.
  - intros Hn. destruct (Z.ltb_spec width 0); [reflexivity|]. exfalso. specialize (Hle _ Win).
    assert (W0 : width = 0%Z) by lia. rewrite W0, <- Ens in Win. unfold ns in Win. apply in_map_iff in Win. destruct Win as (x & Ex & Hx).
    apply (Hn x Hx). rewrite <- Ex. apply trunc_int_part.
Qed.
