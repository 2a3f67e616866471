(** * Proofs about a whole heating simulator. *)

From Coq Require Import String List ZArith QArith Bool Arith Lia Lqa.
From Verif Require Import Prelude PreludeFacts SpecBase SpecBaseFacts Sampling_Spec Sampling_Model Sampling_Proofs Law_Spec Law_Base Law_ChainProofs Law_CountProofs
  Heat_Model Heat_Spec Heat_Proofs Fit_Model Fit_Spec Fit_Proofs.
Import ListNotations.

Lemma block_draws : forall n us i, draws (6 * n) us -> (i < 6)%nat -> draws n (block n i us).
Proof. intros n us i H Hi. exact (draws_piece n 6 us i H Hi). Qed.

Lemma nth_skipn : forall A (l : list A) k i, nth_error (skipn k l) i = nth_error l (k + i).
Proof. induction l as [|x l IH]; intros [|k] i; try reflexivity; [destruct i; reflexivity|]. cbn. apply IH. Qed.

Lemma nth_firstn : forall A (l : list A) k i, (i < k)%nat -> nth_error (firstn k l) i = nth_error l i.
Proof. induction l as [|x l IH]; intros [|k] [|i] H; try lia; try reflexivity. cbn. apply IH. lia. Qed.

Lemma block_at : forall n us k h, (h < n)%nat -> nth_error (block n k us) h = nth_error us (n * k + h).
Proof. intros n us k h H. unfold block. rewrite nth_firstn by exact H. apply nth_skipn. Qed.

Lemma five_done : forall algo dt outside d n us ph pw, complete_data d ph pw -> draws (6 * n) us ->
  exists f y s rh rw vh vw, five_construct algo dt outside d n us = Done f /\
    assign_systems (e_systems d) (block n 0 us) = Done y /\ assign_buildings (e_buildings d) (block n 3 us) = Done s /\
    Forall2 (type_of ph) (block n 1 us) rh /\ Forall2 (type_of pw) (block n 2 us) rw /\
    Forall2 (fun i v => at_ (a_home (e_thermo d)) i v) rh vh /\ Forall2 (fun i v => at_ (a_water (e_thermo d)) i v) rw vw /\
    let g := map2 (fun h w => Targets (Some h) (Some w) (Some (a_setpoint (e_thermo d)))) vh vw in
    f = Five n dt algo y g (a_bands (e_thermo d)) s
          (map2 (fun gn uu => initialize_temperatures outside (g_sh (fst gn)) (snd gn) (Some (2 * fst uu - 1)) (Some (snd uu)))
                    (combine g (b_nominal s)) (combine (block n 4 us) (block n 5 us)))
          (read_cylinders y) (read_cylinders y) (y_combi y) (repeat false n) (repeat false n) (repeat (Some 0) n).
Proof.
  intros algo dt outside d n us ph pw (V1 & C1 & T & V2 & C2) Hus.
  destruct (systems_total _ (block n 0 us) V1 C1 (proj2 (block_draws n us 0 Hus ltac:(lia)))) as [y Hy].
  destruct (buildings_total _ (block n 3 us) V2 C2 (proj2 (block_draws n us 3 Hus ltac:(lia)))) as [s Hs].
  destruct (targets_done _ _ _ (block n 1 us) (block n 2 us) T (proj2 (block_draws n us 1 Hus ltac:(lia))) (proj2 (block_draws n us 2 Hus ltac:(lia))))
    as (rh & rw & vh & vw & F1 & F2 & F3 & F4 & Hg).
  eexists. exists y, s, rh, rw, vh, vw. unfold five_construct. rewrite Hy. cbn [obind]. rewrite Hg. cbn [obind]. rewrite Hs. cbn [obind].
  split; [reflexivity|]. repeat (split; [assumption || reflexivity|]). reflexivity.
Qed.

Lemma forall2_get : forall A B (R : A -> B -> Prop) l m k a, Forall2 R l m -> at_ l k a -> exists b, at_ m k b /\ R a b.
Proof.
  intros A B R l m k a H. revert k. induction H as [|a' b l m H HF IH]; intros [|k] Ha; try discriminate.
  - injection Ha as <-. exists b. split; [reflexivity|exact H].
  - apply (IH k Ha).
Qed.

Lemma nth_repeat : forall A (x : A) n h, (h < n)%nat -> nth_error (repeat x n) h = Some x.
Proof. induction n as [|n IH]; intros [|h] H; try lia; [reflexivity|]. cbn. apply IH. lia. Qed.

Lemma combine_at : forall A B (l : list A) (m : list B) h a b, nth_error l h = Some a -> nth_error m h = Some b -> nth_error (combine l m) h = Some (a, b).
Proof.
  induction l as [|x l IH]; intros [|y m] [|h] a b H1 H2; try discriminate.
  - injection H1 as ->. injection H2 as ->. reflexivity.
  - cbn. apply IH; assumption.
Qed.

(** Everything about household [h] of a fresh simulator. *)
Lemma five_household : forall algo dt outside d n us ph pw f h, complete_data d ph pw -> draws (6 * n) us ->
  five_construct algo dt outside d n us = Done f -> (h < n)%nat ->
  exists u0 u1 u2 u3 u4 u5 i j kh kw home water nominal area p x,
    at_ us h u0 /\ at_ us (n + h) u1 /\ at_ us (n * 2 + h) u2 /\ at_ us (n * 3 + h) u3 /\ at_ us (n * 4 + h) u4 /\ at_ us (n * 5 + h) u5 /\
    household f h = Some (p, x) /\
    type_of (t_prob (e_systems d)) u0 i /\ at_ (y_types (f_system f)) h i /\ system_row (e_systems d) i (p_system p) /\
    type_of (t_prob (e_buildings d)) u3 j /\ at_ (b_types (f_stock f)) h j /\ building_row (e_buildings d) j (p_building p) nominal area /\
    type_of ph u1 kh /\ at_ (a_home (e_thermo d)) kh home /\ type_of pw u2 kw /\ at_ (a_water (e_thermo d)) kw water /\
    at_ (f_demand_cyl f) h (m_cyl (p_system p)) /\ p_bands p = a_bands (e_thermo d) /\ p_dt p = Some dt /\
    x = five_init algo (initialize_temperatures outside (Some home) nominal (Some (2 * u4 - 1)) (Some u5))
                  (Targets (Some home) (Some water) (Some (a_setpoint (e_thermo d)))).
Proof.
  intros algo dt outside d n us ph pw f h Hd Hus Hf Hh.
  destruct (five_done algo dt outside d n us ph pw Hd Hus) as (f' & y & s & rh & rw & vh & vw & Hf' & Hy & Hs & F1 & F2 & F3 & F4 & E).
  rewrite Hf in Hf'. injection Hf' as <-. cbv zeta in E. destruct Hd as (V1 & C1 & T & V2 & C2).
  assert (B : forall k, (k < 6)%nat -> exists u, nth_error (block n k us) h = Some u /\ nth_error us (n * k + h) = Some u).
  { intros k Hk. destruct (block_draws n us k Hus Hk) as [L _]. destruct (nth_error (block n k us) h) as [u|] eqn:Eb.
    - exists u. split; [reflexivity|]. rewrite <- block_at by exact Hh. exact Eb.
    - apply nth_error_None in Eb. lia. }
  destruct (B 0%nat ltac:(lia)) as (u0 & A0 & P0). destruct (B 1%nat ltac:(lia)) as (u1 & A1 & P1). destruct (B 2%nat ltac:(lia)) as (u2 & A2 & P2).
  destruct (B 3%nat ltac:(lia)) as (u3 & A3 & P3). destruct (B 4%nat ltac:(lia)) as (u4 & A4 & P4). destruct (B 5%nat ltac:(lia)) as (u5 & A5 & P5). clear B.
  rewrite Nat.mul_0_r in P0. rewrite Nat.mul_1_r in P1.
  destruct (systems_done _ _ _ Hy) as (Ty & _ & _ & _ & Ry). destruct (buildings_done _ _ _ Hs) as (Ts & _ & Rs).
  apply (proj1 (assign_types_iff _ _ _ V1 (proj2 (block_draws n us 0 Hus ltac:(lia))))) in Ty.
  apply (proj1 (assign_types_iff _ _ _ V2 (proj2 (block_draws n us 3 Hus ltac:(lia))))) in Ts.
  destruct (forall2_get _ _ _ _ _ _ _ Ty A0) as (i & Hi & Ti). destruct (forall2_get _ _ _ _ _ _ _ Ts A3) as (j & Hj & Tj).
  destruct (Ry h i Hi) as (m & Hm & Mc & Mcyl & Row). destruct (Rs h j Hj) as (b & nominal & area & Hb & Hn & _ & Brow).
  destruct (forall2_get _ _ _ _ _ _ _ F1 A1) as (kh & Hkh & Tkh). destruct (forall2_get _ _ _ _ _ _ _ F3 Hkh) as (home & Hhome & Ahome).
  destruct (forall2_get _ _ _ _ _ _ _ F2 A2) as (kw & Hkw & Tkw). destruct (forall2_get _ _ _ _ _ _ _ F4 Hkw) as (water & Hwater & Awater).
  exists u0, u1, u2, u3, u4, u5, i, j, kh, kw, home, water, nominal, area.
  assert (G : nth_error (map2 (fun h w => Targets (Some h) (Some w) (Some (a_setpoint (e_thermo d)))) vh vw) h
              = Some (Targets (Some home) (Some water) (Some (a_setpoint (e_thermo d))))) by (rewrite map2_nth, Hhome, Hwater; reflexivity).
  assert (HH : household f h = Some (HPar (Some dt) (a_bands (e_thermo d)) b m,
     five_init algo (initialize_temperatures outside (Some home) nominal (Some (2 * u4 - 1)) (Some u5)) (Targets (Some home) (Some water) (Some (a_setpoint (e_thermo d)))))).
  { rewrite E. unfold household. cbn [f_system f_targets f_stock f_temps f_build_cyl f_combi f_ext_sys f_ext_cyl f_cyl_dhw f_dt f_bands f_algo].
    unfold at_ in *. rewrite Hm, G, Hb, Mcyl, Mc, !nth_repeat by exact Hh.
    rewrite map2_nth, (combine_at _ _ _ _ _ _ _ G Hn), (combine_at _ _ _ _ _ _ _ A4 A5). cbn [fst snd g_sh].
    f_equal. f_equal. f_equal. destruct m; reflexivity. }
  do 2 eexists. repeat (split; [eassumption|]). rewrite E in *. cbn [f_system f_stock f_demand_cyl p_system p_building p_bands p_dt y_types].
  repeat (split; [assumption || reflexivity|]). reflexivity.
Qed.

(** ** All households of a fresh simulator *)

Lemma flat_map_some : forall A (g : nat -> option A) k a, (forall h, (a <= h)%nat -> (h < a + k)%nat -> exists x, g h = Some x) ->
  length (flat_map (fun h => match g h with Some x => [x] | None => [] end) (seq a k)) = k /\
  forall h x, (h < k)%nat -> g (a + h)%nat = Some x -> at_ (flat_map (fun h => match g h with Some x => [x] | None => [] end) (seq a k)) h x.
Proof.
  induction k as [|k IH]; intros a H; [split; [reflexivity|intros; lia]|]. destruct (H a ltac:(lia) ltac:(lia)) as [x Hx].
  destruct (IH (S a)) as [L HA]; [intros h H1 H2; apply H; lia|]. cbn [seq flat_map]. rewrite Hx. cbn [List.app length].
  split; [lia|]. intros [|h] z Hh Hz.
  - rewrite Nat.add_0_r in Hz. unfold at_. cbn. congruence.
  - unfold at_. cbn. apply HA; [lia|]. rewrite <- Hz. f_equal. lia.
Qed.

Lemma households_fresh : forall algo dt outside d n us ph pw f, complete_data d ph pw -> draws (6 * n) us ->
  five_construct algo dt outside d n us = Done f ->
  length (households f) = n /\ forall h x, (h < n)%nat -> household f h = Some x -> at_ (households f) h x.
Proof.
  intros algo dt outside d n us ph pw f Hd Hus Hf.
  assert (N : f_n f = n).
  { destruct (five_done algo dt outside d n us ph pw Hd Hus) as (f' & y & s & rh & rw & vh & vw & Hf' & _ & _ & _ & _ & _ & _ & E).
    rewrite Hf in Hf'. injection Hf' as <-. cbv zeta in E. rewrite E. reflexivity. }
  unfold households. rewrite N. apply (flat_map_some _ (household f) n 0). intros h _ Hh.
  destruct (five_household algo dt outside d n us ph pw f h Hd Hus Hf Hh) as (u0&u1&u2&u3&u4&u5&i&j&kh&kw&home&water&nominal&area&p&x&H).
  exists (p, x). tauto.
Qed.

Lemma nlt_irrefl : forall a, nlt a a = false.
Proof. intros [a|]; [|reflexivity]. cbn. unfold Qltb. apply negb_false_iff. apply Qle_bool_iff. apply Qle_refl. Qed.

Lemma fresh_off : forall algo t g, x_therm (five_init algo t g) = TStates false false false /\ x_controls (five_init algo t g) = controls_off.
Proof. intros. unfold five_init, thermostats_init. cbn. rewrite !nlt_irrefl. split; reflexivity. Qed.

Lemma fresh_demands : forall algo t g, val (dhw_heat_demand (five_init algo t g)) 0 /\ val (sh_heat_demand (five_init algo t g)) 0 /\ val (total_heat_demand (five_init algo t g)) 0.
Proof. intros. unfold dhw_heat_demand, sh_heat_demand, total_heat_demand. cbn. repeat split; eexists; (split; [reflexivity|]); reflexivity. Qed.

Lemma in_at' : forall A (l : list A) x, In x l -> exists k, at_ l k x.
Proof. intros A l x H. apply In_nth_error in H. exact H. Qed.

Lemma fresh_power : forall algo dt outside d n us ph pw f, complete_data d ph pw -> draws (6 * n) us ->
  five_construct algo dt outside d n us = Done f ->
  (forall h i v, at_ (y_types (f_system f)) h i -> holds (t_txt (e_systems d)) "fuel_type" i v -> known_fuel v) ->
  exists v, five_power (households f) = Ok v /\ length v = n /\
    forall h p x w, (h < n)%nat -> household f h = Some (p, x) -> val (m_standby (p_system p)) w -> exists e, at_ v h e /\ val e w.
Proof.
  intros algo dt outside d n us ph pw f Hd Hus Hf Hfuel.
  destruct (households_fresh algo dt outside d n us ph pw f Hd Hus Hf) as [L A].
  assert (S0 : forall h, (h < n)%nat -> exists p algo t g, at_ (households f) h (p, five_init algo t g) /\ household f h = Some (p, five_init algo t g) /\ known_fuel (m_fuel (p_system p))).
  { intros h Hh. destruct (five_household algo dt outside d n us ph pw f h Hd Hus Hf Hh) as
      (u0&u1&u2&u3&u4&u5&i&j&kh&kw&home&water&nominal&area&p&x&_&_&_&_&_&_&Hx&_&Hi&Hrow&_&_&_&_&_&_&_&_&_&_&Ex).
    exists p, algo. do 2 eexists. rewrite Ex in Hx. split; [apply A; [exact Hh|exact Hx]|]. split; [exact Hx|].
    apply (Hfuel h i); [exact Hi|]. apply Hrow. }
  unfold five_power. set (l := map _ (households f)).
  assert (K : known_fuels l).
  { intros z Hz. apply in_map_iff in Hz as (px & <- & Hpx). apply in_at' in Hpx as [h Hh].
    assert (Hn : (h < n)%nat) by (rewrite <- L; apply nth_error_Some; unfold at_ in Hh; congruence).
    destruct (S0 h Hn) as (p & al & t & g & Hat & _ & F). unfold at_ in *. rewrite Hh in Hat. injection Hat as ->. exact F. }
  apply fuel_total in K as [dd Hdd]. destruct (system_power l) as [v|] eqn:E; [|unfold system_power in E; rewrite Hdd in E; discriminate].
  cbn [bind]. eexists. split; [reflexivity|]. assert (Ev := system_power_eq _ _ E). subst v.
  split; [rewrite map2_length, map_length; unfold l; rewrite map_length; lia|]. intros h p x w Hh Hx Hw.
  assert (Hat := A h _ Hh Hx). destruct (S0 h Hh) as (p' & al & t & g & Hat' & Hx' & F). rewrite Hx in Hx'. injection Hx' as <- ->.
  unfold at_ in *. rewrite map2_nth, Hat, !nth_error_map. unfold l. rewrite nth_error_map, Hat. cbn [option_map].
  eexists. split; [reflexivity|]. cbn [snd fst x_ext_sys five_init nwhere h_sys h_ctl h_out x_controls x_outputs].
  destruct Hw as (w' & Ew & Ew'). unfold pump_power, fuel_of, heating_occurs. cbn [h_sys h_ctl k_on k_sh controls_off andb nwhere]. rewrite Ew.
  rewrite andb_false_r. cbn. exists (w' + 0). split; [reflexivity|]. rewrite Ew'. ring.
Qed.

(** ** Law of the equipment *)

Lemma skip_skip : forall A (l : list A) a b, skipn a (skipn b l) = skipn (b + a) l.
Proof. intros A l a b. revert l. induction b as [|b IH]; intros l; [reflexivity|]. destruct l; [rewrite !skipn_nil; reflexivity|]. cbn. apply IH. Qed.

Lemma forall2_fun : forall A B (R : A -> B -> Prop) l m m', (forall a b b', In a l -> R a b -> R a b' -> b = b') -> Forall2 R l m -> Forall2 R l m' -> m = m'.
Proof.
  intros A B R l m m' Hf H. revert m'. induction H as [|a b l m H HF IH]; intros m' H'; inversion H' as [|? b' ? m2 H1 H2]; subst; [reflexivity|].
  f_equal; [apply (Hf a); [left; reflexivity|assumption|assumption]|]. apply IH; [intros x y y' Hx; apply Hf; right; exact Hx|exact H2].
Qed.

Lemma values_inj : forall (values : list Q) r r' vs, NoDup values -> Forall2 (fun i v => at_ values i v) r vs -> Forall2 (fun i v => at_ values i v) r' vs -> r = r'.
Proof.
  intros values r r' vs Hnd H. revert r'. induction H as [|i v r vs H HF IH]; intros r' H'; inversion H' as [|i' ? r2 ? H1 H2]; subst; [reflexivity|].
  f_equal; [|apply IH; exact H2]. rewrite NoDup_nth_error in Hnd. apply Hnd; [apply nth_error_Some; unfold at_ in H; congruence|]. unfold at_ in *. congruence.
Qed.

Lemma types_fun : forall p us gs gs', p <> [] -> nonneg p -> Forall (fun u => 0 <= u /\ u < 1) us ->
  Forall2 (type_of p) us gs -> Forall2 (type_of p) us gs' -> gs = gs'.
Proof.
  intros p us gs gs' Hne Hp Hus H H'. eapply forall2_fun; [|exact H|exact H']. intros u i j Hu Hi Hj.
  rewrite Forall_forall in Hus. apply (type_fun p u i j Hne Hp (proj1 (Hus u Hu)) Hi Hj).
Qed.

Lemma map2_targets_inj : forall c (a b a' b' : list Q), length a = length b -> length a' = length b' ->
  map2 (fun h w => Targets (Some h) (Some w) (Some c)) a b = map2 (fun h w => Targets (Some h) (Some w) (Some c)) a' b' -> a = a' /\ b = b'.
Proof.
  intros c a. induction a as [|x a IH]; intros [|y b] [|x' a'] [|y' b'] L L' H; try discriminate; [auto|].
  cbn [map2] in H. injection H as <- <- H. cbn in L, L'. destruct (IH b a' b' ltac:(lia) ltac:(lia) H) as [-> ->]. auto.
Qed.

(** Four lists of types at once. *)
Lemma prob_four : forall n p0 p1 p2 p3 g0 g1 g2 g3, p0 <> [] -> p1 <> [] -> p2 <> [] -> p3 <> [] -> nonneg p0 -> nonneg p1 -> nonneg p2 -> nonneg p3 ->
  length g0 = n -> length g1 = n -> length g2 = n -> length g3 = n ->
  has_probability (6 * n) (fun us => Forall2 (type_of p0) (block n 0 us) g0 /\ Forall2 (type_of p1) (block n 1 us) g1 /\
      Forall2 (type_of p2) (block n 2 us) g2 /\ Forall2 (type_of p3) (block n 3 us) g3)
    (product (map (share p0) g0) * (product (map (share p1) g1) * (product (map (share p2) g2) * product (map (share p3) g3)))).
Proof.
  intros n p0 p1 p2 p3 g0 g1 g2 g3 E0 E1 E2 E3 N0 N1 N2 N3 L0 L1 L2 L3.
  assert (W : has_probability (n + (n + 0)) (fun _ => True) 1) by (apply prob_always; auto).
  pose proof (prob_types p0 g0 E0 N0) as H0. pose proof (prob_types p1 g1 E1 N1) as H1. pose proof (prob_types p2 g2 E2 N2) as H2. pose proof (prob_types p3 g3 E3 N3) as H3.
  rewrite L0 in H0. rewrite L1 in H1. rewrite L2 in H2. rewrite L3 in H3.
  pose proof (prob_both _ _ _ _ _ _ H0 (prob_both _ _ _ _ _ _ H1 (prob_both _ _ _ _ _ _ H2 (prob_both _ _ _ _ _ _ H3 W)))) as H.
  change (6 * n)%nat with (n + (n + (n + (n + (n + (n + 0))))))%nat. eapply prob_ext; [exact H| |ring].
  intros us _. cbv beta. unfold block. rewrite !skip_skip. rewrite Nat.mul_0_r, Nat.mul_1_r.
  replace (n * 2)%nat with (n + n)%nat by lia. replace (n * 3)%nat with (n + n + n)%nat by lia. cbn [skipn]. tauto.
Qed.

Lemma equipment_law : forall algo dt outside d n ph pw ss bb hs ws vh vw, complete_data d ph pw -> NoDup (a_home (e_thermo d)) -> NoDup (a_water (e_thermo d)) ->
  length ss = n -> length bb = n -> length hs = n -> length ws = n ->
  Forall2 (fun i v => at_ (a_home (e_thermo d)) i v) hs vh -> Forall2 (fun i v => at_ (a_water (e_thermo d)) i v) ws vw ->
  has_probability (6 * n) (fun us => exists f, five_construct algo dt outside d n us = Done f /\
      y_types (f_system f) = ss /\ b_types (f_stock f) = bb /\ map g_sh (f_targets f) = map Some vh /\ map g_dhw (f_targets f) = map Some vw)
    (product (map (share (t_prob (e_systems d))) ss) * product (map (share (t_prob (e_buildings d))) bb) * product (map (entry ph) hs) * product (map (entry pw) ws)).
Proof.
  intros algo dt outside d n ph pw ss bb hs ws vh vw Hd N1 N2 L1 L2 L3 L4 Fh Fw.
  pose proof Hd as ((E1 & P1 & _) & C1 & (E3 & P3 & _ & _ & E4 & P4 & _) & (E2 & P2 & _) & C2).
  pose proof (prob_four n (t_prob (e_systems d)) ph pw (t_prob (e_buildings d)) ss hs ws bb E1 E3 E4 E2 P1 (proj1 P3) (proj1 P4) P2 L1 L3 L4 L2) as H.
  assert (Sh : forall p l, is_pdf p -> product (map (share p) l) == product (map (entry p) l)).
  { intros p l Hp. induction l as [|i l IH]; [reflexivity|]. cbn [map product]. rewrite IH, (share_pdf p i Hp). reflexivity. }
  eapply prob_ext; [exact H| |].
  - intros us Hus. cbv beta.
    assert (D : forall k, (k < 6)%nat -> Forall (fun u => 0 <= u /\ u < 1) (block n k us)) by (intros k Hk; apply (block_draws n us k Hus Hk)).
    destruct (five_done algo dt outside d n us ph pw Hd Hus) as (f & y & s & rh & rw & vh' & vw' & Hf & Hy & Hs & G1 & G2 & G3 & G4 & E). cbv zeta in E.
    destruct (systems_done _ _ _ Hy) as (Ty & _). destruct (buildings_done _ _ _ Hs) as (Ts & _).
    apply (proj1 (assign_types_iff _ _ _ (proj1 Hd) (D 0%nat ltac:(lia)))) in Ty.
    apply (proj1 (assign_types_iff _ _ _ (proj1 (proj2 (proj2 (proj2 Hd)))) (D 3%nat ltac:(lia)))) in Ts.
    assert (Lh : length vh' = n /\ length vw' = n).
    { destruct (forall2_at _ _ _ _ _ G1) as [A1 _]. destruct (forall2_at _ _ _ _ _ G2) as [A2 _]. destruct (forall2_at _ _ _ _ _ G3) as [A3 _].
      destruct (forall2_at _ _ _ _ _ G4) as [A4 _]. destruct (block_draws n us 1 Hus ltac:(lia)) as [A5 _]. destruct (block_draws n us 2 Hus ltac:(lia)) as [A6 _]. lia. }
    assert (M : map g_sh (map2 (fun h w => Targets (Some h) (Some w) (Some (a_setpoint (e_thermo d)))) vh' vw') = map Some vh' /\
                map g_dhw (map2 (fun h w => Targets (Some h) (Some w) (Some (a_setpoint (e_thermo d)))) vh' vw') = map Some vw').
    { assert (Q : length vh' = length vw') by lia. clear - Q. revert vw' Q. induction vh' as [|a l IH]; intros [|b m] Q; try discriminate; [split; reflexivity|].
      cbn [map2 map g_sh g_dhw]. destruct (IH m ltac:(cbn in Q; lia)) as [-> ->]. split; reflexivity. }
    assert (Inj : forall (a b : list Q), map Some a = map Some b -> a = b).
    { induction a as [|x a IH]; intros [|z b] Q; try discriminate; [reflexivity|]. cbn in Q. injection Q as -> Q. f_equal. apply IH. exact Q. }
    split.
    + intros (A1 & A2 & A3 & A4). exists f. split; [exact Hf|]. rewrite E. cbn [f_system f_stock f_targets].
      split; [apply (types_fun _ _ _ _ E1 P1 (D 0%nat ltac:(lia)) Ty A1)|]. split; [apply (types_fun _ _ _ _ E2 P2 (D 3%nat ltac:(lia)) Ts A4)|].
      assert (rh = hs) by (apply (types_fun _ _ _ _ E3 (proj1 P3) (D 1%nat ltac:(lia)) G1 A2)). assert (rw = ws) by (apply (types_fun _ _ _ _ E4 (proj1 P4) (D 2%nat ltac:(lia)) G2 A3)). subst rh rw.
      assert (vh' = vh) by (eapply forall2_fun; [|exact G3|exact Fh]; unfold at_; intros; congruence).
      assert (vw' = vw) by (eapply forall2_fun; [|exact G4|exact Fw]; unfold at_; intros; congruence). subst vh' vw'. exact M.
    + intros (f' & Hf' & B1 & B2 & B3 & B4). rewrite Hf in Hf'. injection Hf' as <-. rewrite E in B1, B2, B3, B4. cbn [f_system f_stock f_targets] in *.
      destruct M as [M1 M2]. rewrite M1 in B3. rewrite M2 in B4. apply Inj in B3. apply Inj in B4. subst vh' vw' ss bb.
      rewrite (values_inj _ _ _ _ N1 Fh G3), (values_inj _ _ _ _ N2 Fw G4). auto.
  - rewrite (Sh ph hs P3), (Sh pw ws P4). ring.
Qed.
