(** * Proofs about simulators whose tables follow the calendar: chains and calendar. *)

From Coq Require Import String List ZArith QArith Bool Arith Lia.
From Coq Require Import ZifyBool ZifyNat.
From Verif Require Import Prelude PreludeFacts SpecBase SpecBaseFacts Sampling_Spec Parse_Model Parse_Spec Sparse_Model
  Activity_Model Activity_Spec Activity_Proofs Activity_LabelProofs Activity_HouseProofs Time_Model Subgroup_Model
  Switch_Model Switch_Spec.
Import ListNotations.

Ltac Zify.zify_post_hook ::= Z.div_mod_to_equations.

(** ** One chain *)

Section Chains.
  Variables (L G : Type).
  Implicit Types b : sub L G.

  Definition good_load (load : G -> result (loaded L)) (g : G) : Prop :=
    exists tpms labels pdf, load g = Ok (tpms, labels, pdf) /\ fitting tpms labels pdf.

  (** Chain [b] holds the tables of its key, [k] of them consumed. *)
  Definition sub_ok (load : G -> result (loaded L)) (k : nat) b : Prop :=
    exists tpms labels pdf, load (b_key b) = Ok (tpms, labels, pdf) /\ fitting tpms labels pdf /\
      cyc_ok (map (map cumsum) tpms) k (c_iter (b_chain b)) /\ c_labels (b_chain b) = labels /\
      (forall j x, at_ (c_states (b_chain b)) j x -> (x < length labels)%nat) /\
      length (c_states (b_chain b)) = c_n (b_chain b).

  Lemma step_one : forall load k b u, sub_ok load k b -> unit_draws u ->
    exists c, chain_step (b_chain b) u = Ok c /\ sub_ok load (S k) (mkSub (b_key b) c) /\
      c_n c = c_n (b_chain b) /\ c_ticks c = (c_ticks (b_chain b) + 1)%Z /\
      forall tpms labels pdf m, load (b_key b) = Ok (tpms, labels, pdf) -> at_ tpms (k mod length tpms) m ->
        moves m u (c_states (b_chain b)) (c_states c).
  Proof.
    intros load k [g c] u (tpms & labels & pdf & El & Hf & Hit & Hl & Hs & Hn) Hu. cbn [b_key b_chain] in *.
    destruct Hf as (Hne & Hlne & Hst & Hf).
    destruct (@chain_step_ok L tpms (length labels) k (mkChain (c_n c) (length labels) (c_labels c) (c_states c) (c_iter c) (c_ticks c)) u Hne Hst Hu)
      as (c2 & Hc2 & Hok2 & Hl2 & Ht2 & Hn2 & Hlab2 & Hk2).
    { split; [reflexivity|]. split; [exact Hit|exact Hs]. }
    destruct (@chain_step_nstates L c (length labels) u c2 Hc2) as (c3 & Hc3 & Hst3 & Hn3).
    assert (Hall : c_iter c3 = c_iter c2 /\ c_labels c3 = c_labels c2 /\ c_n c3 = c_n c2 /\ c_ticks c3 = c_ticks c2).
    { clear - Hc2 Hc3. unfold chain_step in *. cbn [c_n c_nstates c_labels c_states c_iter c_ticks] in Hc2.
      destruct (cyc_next (c_iter c)) as [r|]; [|discriminate]. cbn [bind] in *.
      destruct (mapM (get_at (fst r)) (c_states c)) as [rows|]; [|discriminate]. cbn [bind] in *.
      destruct (mc_rows rows u) as [st|]; [|discriminate]. cbn [bind] in *. injection Hc2 as <-. injection Hc3 as <-. repeat split. }
    destruct Hall as (Ha & Hb & Hc & Hd). cbn [c_n c_states c_ticks c_labels] in Hl2, Ht2, Hn2, Hlab2.
    exists c3. split; [exact Hc3|]. split; [|split; [congruence|split; [congruence|]]].
    - exists tpms, labels, pdf. split; [exact El|]. split; [split; [|split; [|split]]; assumption|]. cbn [b_chain].
      destruct Hok2 as (_ & Hit2 & Hs2). split; [rewrite Ha; exact Hit2|]. split; [congruence|].
      split; [rewrite Hst3; exact Hs2|congruence].
    - intros tpms' labels' pdf' m El' Hm. rewrite El in El'. injection El' as <- <- <-.
      split; [rewrite Hst3; exact Hl2|]. intros j x Hj. destruct (Hk2 j x Hj) as (row & x' & (m' & Hm' & Hr) & Hx' & Hsel).
      rewrite (at_fun _ _ _ _ _ Hm' Hm) in Hr. exists row, x'. split; [exact Hr|]. split; [exact Hsel|]. rewrite Hst3. exact Hx'.
  Qed.

  Lemma step_all_ok : forall load k u l i, Forall (sub_ok load k) l -> (forall i, unit_draws (u i)) ->
    exists l', step_all u i l = Ok l' /\ Forall (sub_ok load (S k)) l' /\ map (@b_key L G) l' = map (@b_key L G) l /\
      map (fun b => c_n (b_chain b)) l' = map (fun b => c_n (b_chain b)) l /\
      forall q b, at_ l q b -> exists b', at_ l' q b' /\ b_key b' = b_key b /\ c_labels (b_chain b') = c_labels (b_chain b) /\
        forall tpms labels pdf m, load (b_key b) = Ok (tpms, labels, pdf) -> at_ tpms (k mod length tpms) m ->
          moves m (u (i + q)%nat) (c_states (b_chain b)) (c_states (b_chain b')).
  Proof.
    intros load k u. induction l as [|b l IH]; intros i Hl Hu.
    - exists []. split; [reflexivity|]. split; [constructor|]. split; [reflexivity|]. split; [reflexivity|].
      intros q b H. destruct q; discriminate.
    - inversion Hl as [|? ? Hb Hl']; subst. destruct (step_one load k b (u i) Hb (Hu i)) as (c & Ec & Hok & Hn & Ht & Hm).
      destruct (IH (S i) Hl' Hu) as (l' & El & Hok' & Hk & Hn' & Hq).
      exists (mkSub (b_key b) c :: l'). simpl. rewrite Ec. cbn [bind]. rewrite El. cbn [bind]. split; [reflexivity|].
      split; [constructor; assumption|]. split; [congruence|]. split; [congruence|].
      intros [|q] b0 H.
      + injection H as <-. exists (mkSub (b_key b) c). split; [reflexivity|]. split; [reflexivity|].
        split.
        * destruct Hok as (t1 & l1 & p1 & E1 & _ & _ & H1 & _). destruct Hb as (t2 & l2 & p2 & E2 & _ & _ & H2 & _).
          cbn [b_key b_chain] in *. congruence.
        * intros tpms labels pdf m E Hat. rewrite Nat.add_0_r. cbn [b_chain]. eapply Hm; eauto.
      + destruct (Hq q b0 H) as (b' & H1 & H2 & H3 & H4). exists b'. split; [exact H1|]. split; [exact H2|]. split; [exact H3|].
        intros. replace (i + S q)%nat with (S i + q)%nat by lia. eapply H4; eauto.
  Qed.

  Variable cmp : L -> L -> comparison.
  Hypothesis ord : total_order cmp.

  Lemma sole_dec : forall (new : list L) lab, (exists p, sole_position new lab p) \/ forall p, ~ sole_position new lab p.
  Proof.
    intros new lab. destruct (position_in cmp new lab) as [|q|q] eqn:Ep.
    - left. unfold position_in in Ep. destruct (where_true _) as [|k [|]] eqn:Ew; try discriminate. exists k.
      eapply where_single_sole; eauto.
    - left. unfold position_in in Ep. destruct (where_true _) as [|k [|]] eqn:Ew; try discriminate. exists k.
      eapply where_single_sole; eauto.
    - right. intros p Hp. rewrite (position_found ord Hp) in Ep. lia.
  Qed.

  Lemma new_tables_ok : forall load load' k b g, sub_ok load k b -> good_load load' g ->
    exists b', new_tables cmp load' b g = Ok b' /\ sub_ok load' 1 b' /\ b_key b' = g /\
      c_n (b_chain b') = c_n (b_chain b) /\
      relabelled (c_labels (b_chain b)) (c_labels (b_chain b')) (c_states (b_chain b)) (c_states (b_chain b')).
  Proof.
    intros load load' k [g0 c] g (tpms & labels & pdf & El & Hf & Hit & Hl & Hs & Hn) (tpms' & labels' & pdf' & El' & Hf').
    cbn [b_key b_chain] in *. unfold new_tables. rewrite El'. cbn [bind]. unfold set_tpm.
    destruct Hf' as (Hne & Hlne & Hst & Hf').
    destruct (@tpm_iter_ok tpms' (length labels') true Hne Hst) as (it & Eit & Hit'). cbn [b_chain]. rewrite Eit. cbn [bind].
    set (c1 := mkChain (c_n c) (c_nstates c) (c_labels c) (c_states c) it (c_ticks c)).
    destruct (@assign_new_labels_ok L cmp ord c1 labels') as (c' & E & H1 & H2 & H3 & H4 & H5 & H6).
    { cbn [c1 c_states c_labels]. rewrite Hl. exact Hs. }
    rewrite E. cbn [bind]. exists (mkSub g c'). split; [reflexivity|]. cbn [b_key b_chain].
    assert (Hrel : relabelled (c_labels c) (c_labels c') (c_states c) (c_states c')).
    { split; [exact H2|]. intros j x Hj. assert (Hx : (x < length (c_labels c))%nat) by (rewrite Hl; eapply Hs; exact Hj).
      destruct (lt_at _ _ _ Hx) as [lab Hlab]. exists lab. split; [exact Hlab|]. rewrite H1. exact (H6 j x lab Hj Hlab). }
    split; [|split; [reflexivity|split; [exact H5|exact Hrel]]].
    exists tpms', labels', pdf'. cbn [b_key b_chain]. split; [exact El'|]. split; [split; [|split; [|split]]; assumption|].
    split; [rewrite H3; exact Hit'|]. split; [exact H1|]. split; [|rewrite H2, H5; exact Hn].
    intros j x Hj. pose proof (at_lt _ _ _ _ Hj) as Hlt. rewrite H2 in Hlt. destruct (lt_at _ _ _ Hlt) as [x0 Hx0].
    destruct Hrel as [_ Hrel]. destruct (Hrel j x0 Hx0) as (lab & _ & Ha & Hb). rewrite H1 in Ha, Hb.
    destruct (sole_dec labels' lab) as [[p Hp]|Hno].
    - rewrite (at_fun _ _ _ _ _ Hj (Ha p Hp)). destruct Hp as [Hp _]. eapply at_lt; exact Hp.
    - rewrite (at_fun _ _ _ _ _ Hj (Hb Hno)). destruct labels'; [congruence|simpl; lia].
  Qed.

  Lemma make_sub_ok : forall load size u g n, good_load load g -> unit_draws u -> (0 < n)%nat ->
    (forall tpms labels pdf, load g = Ok (tpms, labels, pdf) -> size g labels = length labels) ->
    exists b, make_sub load size u g n = Ok b /\ sub_ok load 1 b /\ b_key b = g /\ c_n (b_chain b) = n /\
      forall tpms labels pdf j x, load g = Ok (tpms, labels, pdf) -> at_ (c_states (b_chain b)) j x -> selects pdf (u j) x.
  Proof.
    intros load size u g n (tpms & labels & pdf & El & Hf) Hu Hn Hsz. pose proof Hf as (Hne & Hlne & Hst & Hp & Hpdf).
    unfold make_sub. rewrite El. cbn [bind]. rewrite (Hsz _ _ _ El).
    assert (Hi : exists c0, chain_init n (length labels) tpms labels = Ok c0).
    { unfold chain_init. destruct (Nat.eqb_spec n 0); [lia|].
      assert (Hq : forallb (square (length labels)) tpms = true).
      { apply forallb_forall. intros m Hm. apply In_nth_error in Hm as [t Ht]. destruct (Hst t m Ht) as [Ha Hb]. unfold square.
        apply andb_true_intro. split; [apply Nat.eqb_eq; exact Ha|]. apply forallb_forall. intros row Hr.
        apply In_nth_error in Hr as [s Hs]. apply Nat.eqb_eq. apply (Hb s row Hs). }
      rewrite Hq. cbn [negb]. rewrite Nat.eqb_refl. cbn [negb]. eauto. }
    destruct Hi as [c0 Hc0]. rewrite Hc0. cbn [bind].
    destruct (@chain_start_ok L n (length labels) tpms labels c0 pdf true u Hne Hst Hp Hpdf Hu Hc0) as (c & Ec & Hok & Hl & Ht & Hcn & Hlab & Hsel).
    rewrite Ec. cbn [bind]. exists (mkSub g c). split; [reflexivity|]. cbn [b_key b_chain].
    split; [|split; [reflexivity|split; [exact Hcn|]]].
    - exists tpms, labels, pdf. cbn [b_key b_chain]. split; [exact El|]. split; [exact Hf|]. destruct Hok as (_ & Ha & Hb).
      split; [exact Ha|]. split; [exact Hlab|]. split; [exact Hb|congruence].
    - intros tpms' labels' pdf' j x E Hj. injection E as <- <- <-. apply Hsel. exact Hj.
  Qed.

  Lemma make_subs_ok : forall load size u l i, (forall g n, In (g, n) l -> good_load load g /\ (0 < n)%nat) ->
    (forall i, unit_draws (u i)) ->
    (forall g n tpms labels pdf, In (g, n) l -> load g = Ok (tpms, labels, pdf) -> size g labels = length labels) ->
    exists bs, make_subs load size u i l = Ok bs /\ Forall (sub_ok load 1) bs /\
      map (fun b => (b_key b, c_n (b_chain b))) bs = l /\
      forall q b tpms labels pdf j x, at_ bs q b -> load (b_key b) = Ok (tpms, labels, pdf) -> at_ (c_states (b_chain b)) j x -> selects pdf (u (i + q)%nat j) x.
  Proof.
    intros load size u. induction l as [|[g n] l IH]; intros i Hl Hu Hsz.
    - exists []. split; [reflexivity|]. split; [constructor|]. split; [reflexivity|]. intros [|q] b tpms labels pdf j x H; discriminate.
    - destruct (Hl g n (or_introl eq_refl)) as [Hg Hn].
      destruct (make_sub_ok load size (u i) g n Hg (Hu i) Hn) as (b & Eb & Hok & Hk & Hc & Hsel).
      { intros tpms labels pdf E. eapply Hsz; [left; reflexivity|exact E]. }
      destruct (IH (S i)) as (bs & Ebs & Hoks & Hm & Hsels); [intros; apply Hl; right; assumption|exact Hu|intros; eapply Hsz; [right; eassumption|eassumption]|].
      exists (b :: bs). simpl. rewrite Eb. cbn [bind]. rewrite Ebs. cbn [bind]. split; [reflexivity|].
      split; [constructor; assumption|]. split; [rewrite Hm, Hk, Hc; reflexivity|].
      intros [|q] b0 tpms labels pdf j x Hq E Hj.
      + injection Hq as <-. rewrite Hk in E. rewrite Nat.add_0_r. eapply Hsel; eauto.
      + rewrite <- Nat.add_succ_comm. eapply (Hsels q); eauto.
  Qed.
End Chains.

(** ** The calendar *)

Lemma alike_type : forall t, alike t = weekdays_of (day_type_at t).
Proof.
  intros t. unfold alike, day_type_at, isoweekday, weekday_at, a_day, us_per_day.
  destruct (Z.ltb_spec ((t / (24 * 3600 * 1000000)) mod 7) 5);
    destruct (Z.leb_spec ((t / 86400000000) mod 7 + 1) 5); try reflexivity; exfalso; change (24 * 3600 * 1000000)%Z with 86400000000%Z in *; lia.
Qed.

Lemma weekdays_inj : forall a b, weekdays_of a = weekdays_of b -> a = b.
Proof. intros [|] [|] H; try reflexivity; discriminate. Qed.

Section Calendar.
  Local Open Scope Z_scope.
  Variables (r start first : Z).

  Lemma refreshed_next : forall t b, (ten | t - first) -> first <= t ->
    (refreshed r first (t + ten) b <-> refreshed r first t b \/ (b = t /\ t mod a_day = r)).
  Proof.
    intros t b [q Hq] Hf. unfold refreshed. split.
    - intros (H1 & H2 & [p Hp]). destruct (Z.eq_dec b t) as [->|Hne]; [right; auto|]. left. split; [exact H1|]. split; [|exists p; exact Hp].
      unfold ten in *. nia.
    - intros [(H1 & H2 & H3)|[-> H1]].
      + split; [exact H1|]. split; [unfold ten in *; lia|exact H3].
      + split; [exact H1|]. split; [unfold ten; lia|exists q; exact Hq].
  Qed.

  Lemma in_force_fun : forall t d d', in_force r start first t d -> in_force r start first t d' -> d = d'.
  Proof.
    intros t d d' [(b & [H1 H2] & ->)|[H1 ->]] [(b' & [H1' H2'] & ->)|[H1' ->]].
    - assert (b = b') by (pose proof (H2 _ H1'); pose proof (H2' _ H1); lia). subst. reflexivity.
    - exfalso. eapply H1'. exact H1.
    - exfalso. eapply H1. exact H1'.
    - reflexivity.
  Qed.

  Lemma in_force_first : in_force r start first first (alike start).
  Proof. right. split; [|reflexivity]. intros b (_ & H & _). lia. Qed.

  Lemma in_force_keep : forall t d, (ten | t - first) -> first <= t -> t mod a_day <> r ->
    in_force r start first t d -> in_force r start first (t + ten) d.
  Proof.
    intros t d Ht Hf Hr [(b & [H1 H2] & ->)|[H1 ->]].
    - left. exists b. split; [|reflexivity]. split; [apply refreshed_next; auto|].
      intros b' Hb'. apply refreshed_next in Hb' as [Hb'|[_ Hb']]; auto. contradiction.
    - right. split; [|reflexivity]. intros b Hb. apply refreshed_next in Hb as [Hb|[_ Hb]]; auto. eapply H1; exact Hb.
  Qed.

  Lemma in_force_refresh : forall t, (ten | t - first) -> first <= t -> t mod a_day = r ->
    in_force r start first (t + ten) (alike (t + ten)).
  Proof.
    intros t Ht Hf Hr. left. exists t. split; [|reflexivity]. split; [apply refreshed_next; auto|].
    intros b' Hb'. apply refreshed_next in Hb' as [(_ & Hb' & _)|[-> _]]; auto; lia.
  Qed.

  Lemma changed_next : forall t b, (ten | t - first) -> first <= t ->
    (changed r start first (t + ten) b <->
     changed r start first t b \/ (b = t /\ t mod a_day = r /\ exists d, in_force r start first t d /\ d <> alike (t + ten))).
  Proof.
    intros t b Ht Hf. unfold changed. split.
    - intros (H1 & d & H2 & H3). apply refreshed_next in H1 as [H1|[-> H1]]; auto.
      + left. split; [exact H1|]. exists d. auto.
      + right. split; [reflexivity|]. split; [exact H1|]. exists d. auto.
    - intros [(H1 & H2)|(-> & H1 & H2)].
      + split; [apply refreshed_next; auto|exact H2].
      + split; [apply refreshed_next; auto|exact H2].
  Qed.

  Lemma matrix_first : matrix_number r start first first 1.
  Proof. right. split; [|lia]. intros b ((_ & H & _) & _). lia. Qed.

  (** No change at the end of the step that begins at [t]. *)
  Lemma matrix_keep : forall t d k, (ten | t - first) -> first <= t ->
    (t mod a_day = r -> d = alike (t + ten)) -> in_force r start first t d ->
    matrix_number r start first t k -> matrix_number r start first (t + ten) (S k).
  Proof.
    intros t d k Ht Hf Hr Hd Hm.
    assert (Hno : ~ (t mod a_day = r /\ exists d, in_force r start first t d /\ d <> alike (t + ten))).
    { intros (H1 & d' & H2 & H3). apply H3. rewrite <- (Hr H1). eapply in_force_fun; eauto. }
    destruct Hm as [(b & [H1 H2] & H3)|[H1 H2]].
    - left. exists b. split; [|rewrite Nat2Z.inj_succ; lia]. split; [apply changed_next; auto|].
      intros b' Hb'. apply changed_next in Hb' as [Hb'|[_ Hb']]; auto. contradiction.
    - right. split; [|rewrite Nat2Z.inj_succ; lia]. intros b Hb. apply changed_next in Hb as [Hb|[_ Hb]]; auto. eapply H1; exact Hb.
  Qed.

  Lemma matrix_change : forall t d, (ten | t - first) -> first <= t -> t mod a_day = r ->
    in_force r start first t d -> d <> alike (t + ten) -> matrix_number r start first (t + ten) 1.
  Proof.
    intros t d Ht Hf Hr Hd Hne. left. exists t. split; [|lia]. split; [apply changed_next; eauto 6|].
    intros b' Hb'. apply changed_next in Hb' as [((_ & Hb' & _) & _)|[-> _]]; auto; lia.
  Qed.
End Calendar.
