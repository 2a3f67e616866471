(** * Proofs about SubgroupsIndividualsActivitySimulator over time. *)

From Coq Require Import String List ZArith QArith Bool Arith Lia.
From Coq Require Import ZifyBool ZifyNat.
From Verif Require Import Prelude PreludeFacts SpecBase SpecBaseFacts Sampling_Spec Parse_Model Parse_Spec
  Sparse_Model Activity_Model Activity_Spec Activity_Proofs Activity_LabelProofs Activity_HouseProofs Time_Model Time_Spec Time_Proofs
  Subgroup_Model Subgroup_Spec Subgroup_Proofs Switch_Model Switch_Spec Switch_IndSpec Switch_ObsSpec Switch_Proofs.
Import ListNotations.

Ltac Zify.zify_post_hook ::= Z.div_mod_to_equations.

Lemma dated_step : forall kind q t g key, (0 <= t)%Z -> is_dict key ->
  (forall k, k <> "weekday"%string -> k <> "quarter"%string -> agree key g k) ->
  let '(f1, f2, f3) := flags kind in exists key', add_time key t f1 f2 f3 q = Ok key' /\ dated kind q t g key'.
Proof.
  intros kind q t g key Ht Hd Ha. pose proof (add_time_main key t kind q Hd Ht) as H. destruct (flags kind) as [[f1 f2] f3].
  destruct H as (key' & E & H1 & H2 & H3 & H4). exists key'. split; [exact E|]. split; [exact H1|]. split; [|split; [exact H3|exact H4]].
  intros k N1 N2 v. rewrite (H2 k N1 N2 v). exact (Ha k N1 N2 v).
Qed.

Section Ind.
  Variables (cmp : string -> string -> comparison) (d : ind_data) (kind : day_types) (u : Z -> nat -> nat -> Q) (first : Z).
  Variable persons : list (subgroup * nat).
  Hypothesis ord : total_order cmp.
  Hypothesis flagged : flags kind = ind_flags d.
  Hypothesis tables : ind_tables d kind persons.
  Hypothesis draws : forall t q, unit_draws (u t q).
  Hypothesis positive : (0 <= first)%Z.

  Notation r0 := (id_refresh d).
  Notation subs := (list (sub string subgroup)).
  Notation in_key := (key_in_force (id_aware d) kind (id_quarters d) r0 first).

  Definition sizes (l : subs) := map (fun b => c_n (b_chain b)) l.

  Definition ind_inv (k : nat) (s : tsim subs) : Prop :=
    now s = (first + ticks s * ten)%Z /\ (0 <= ticks s)%Z /\ step_size s = ten /\
    renewed_number (id_aware d) r0 first (now s) k /\
    Forall (sub_ok string subgroup (id_load d) k) (user s) /\
    length (user s) = length persons /\
    (forall q b g n, at_ (user s) q b -> at_ persons q (g, n) -> in_key (now s) g (b_key b) /\ c_n (b_chain b) = n).

  Lemma key_dict : forall t g n key, In (g, n) persons -> in_key t g key ->
    is_dict key /\ forall k, k <> "weekday"%string -> k <> "quarter"%string -> agree key g k.
  Proof.
    intros t g n key Hg [(_ & b & _ & (H1 & H2 & _))|[_ ->]]; [auto|]. destruct (tables g n Hg) as [H _]. split; [exact H|].
    intros k _ _ v. tauto.
  Qed.

  Lemma keys_renewed : forall t (l : subs), (0 <= t)%Z -> length l = length persons ->
    (forall q b g n, at_ l q b -> at_ persons q (g, n) -> exists t', in_key t' g (b_key b)) ->
    exists keys, mapM (fun b => add_time (b_key b) t (id_ends d) (id_sat_sun d) (id_7days d) (id_quarters d)) l = Ok keys /\
      length keys = length l /\ forall q key g n, at_ keys q key -> at_ persons q (g, n) -> dated kind (id_quarters d) t g key.
  Proof.
    intros t l Ht Hlen Hk.
    assert (Hone : forall q b g n, at_ l q b -> at_ persons q (g, n) ->
      exists key', add_time (b_key b) t (id_ends d) (id_sat_sun d) (id_7days d) (id_quarters d) = Ok key' /\ dated kind (id_quarters d) t g key').
    { intros q b g n Hb Hg. destruct (Hk q b g n Hb Hg) as [t' Hin]. destruct (key_dict t' g n (b_key b) (at_in _ _ _ _ Hg) Hin) as [H1 H2].
      pose proof (dated_step kind (id_quarters d) t g (b_key b) Ht H1 H2) as H. rewrite flagged in H. exact H. }
    destruct (mapM_total _ _ (fun b => add_time (b_key b) t (id_ends d) (id_sat_sun d) (id_7days d) (id_quarters d)) l) as [keys E].
    { intros b Hb. apply in_at in Hb as [q Hq]. pose proof (at_lt _ _ _ _ Hq) as Hlt. rewrite Hlen in Hlt. destruct (lt_at _ _ _ Hlt) as [[g n] Hg].
      destruct (Hone q b g n Hq Hg) as (key & Hkey & _). eauto. }
    exists keys. split; [exact E|]. apply mapM_ok in E as [Hl Hq]. split; [exact Hl|]. intros q key g n Hkey Hg.
    pose proof (at_lt _ _ _ _ Hkey) as Hlt. rewrite Hl in Hlt. destruct (lt_at _ _ _ Hlt) as [b Hb].
    destruct (Hq q b Hb) as (key' & Hkey' & E). rewrite (at_fun _ _ _ _ _ Hkey Hkey').
    destruct (Hone q b g n Hb Hg) as (key'' & E' & Hd). rewrite E in E'. injection E' as <-. exact Hd.
  Qed.

  Lemma renew_all : forall k (l : subs) keys, Forall (sub_ok string subgroup (id_load d) k) l -> length keys = length l ->
    Forall (good_load string subgroup (id_load d)) keys ->
    exists l', mapM (fun p => new_tables cmp (id_load d) (fst p) (snd p)) (combine l keys) = Ok l' /\
      Forall (sub_ok string subgroup (id_load d) 1) l' /\ length l' = length l /\ sizes l' = sizes l /\
      forall q b key, at_ l q b -> at_ keys q key -> exists b', at_ l' q b' /\ b_key b' = key /\
        relabelled (c_labels (b_chain b)) (c_labels (b_chain b')) (c_states (b_chain b)) (c_states (b_chain b')).
  Proof.
    intros k. induction l as [|b l IH]; intros [|key keys] Hl Hlen Hg; try discriminate.
    - exists []. split; [reflexivity|]. split; [constructor|]. split; [reflexivity|]. split; [reflexivity|]. intros [|q] b key H; discriminate.
    - inversion Hl as [|? ? Hb Hl']; subst. inversion Hg as [|? ? Hk Hg']; subst. injection Hlen as Hlen.
      destruct (new_tables_ok string subgroup cmp ord (id_load d) (id_load d) k b key Hb Hk) as (b' & Eb & Hok & Hkey & Hn & Hrel).
      destruct (IH keys Hl' Hlen Hg') as (l' & El & Hok' & Hlen' & Hs & Hq).
      exists (b' :: l'). cbn [combine mapM fst snd]. rewrite Eb. cbn [bind]. rewrite El. cbn [bind]. split; [reflexivity|].
      split; [constructor; assumption|]. split; [cbn [length]; congruence|]. split; [unfold sizes in *; cbn [map]; congruence|].
      intros [|q] b0 key0 H1 H2.
      + injection H1 as <-. injection H2 as <-. exists b'. split; [reflexivity|]. auto.
      + exact (Hq q b0 key0 H1 H2).
  Qed.

  Lemma at_sizes : forall (l l' : subs) q b b', sizes l' = sizes l -> at_ l q b -> at_ l' q b' -> c_n (b_chain b') = c_n (b_chain b).
  Proof.
    intros l l' q b b' H H1 H2. assert (E1 : at_ (sizes l) q (c_n (b_chain b))) by (unfold sizes, at_ in *; rewrite nth_error_map, H1; reflexivity).
    assert (E2 : at_ (sizes l') q (c_n (b_chain b'))) by (unfold sizes, at_ in *; rewrite nth_error_map, H2; reflexivity).
    rewrite H in E2. exact (at_fun _ _ _ _ _ E2 E1).
  Qed.

  Lemma renewed_keep : forall t k, (ten | t - first)%Z -> (first <= t)%Z -> (id_aware d = false \/ (t mod a_day)%Z <> r0) ->
    renewed_number (id_aware d) r0 first t k -> renewed_number (id_aware d) r0 first (t + ten) (S k).
  Proof.
    intros t k Ht Hf Hr [(Ha & b & [H1 H2] & H3)|[H1 H2]].
    - left. split; [exact Ha|]. exists b. assert (Hne : (t mod a_day)%Z <> r0) by (destruct Hr; congruence).
      split; [|rewrite Nat2Z.inj_succ; lia]. split; [apply refreshed_next; auto|].
      intros b' Hb'. apply refreshed_next in Hb' as [Hb'|[_ Hb']]; auto. contradiction.
    - right. split; [|rewrite Nat2Z.inj_succ; lia]. destruct Hr as [Hr|Hr]; [left; exact Hr|]. destruct H1 as [H1|H1]; [left; exact H1|].
      right. intros b Hb. apply refreshed_next in Hb as [Hb|[_ Hb]]; auto. exact (H1 b Hb).
  Qed.

  Lemma key_keep : forall t g key, (ten | t - first)%Z -> (first <= t)%Z -> (id_aware d = false \/ (t mod a_day)%Z <> r0) ->
    in_key t g key -> in_key (t + ten)%Z g key.
  Proof.
    intros t g key Ht Hf Hr [(Ha & b & [H1 H2] & H3)|[H1 H2]].
    - left. split; [exact Ha|]. exists b. assert (Hne : (t mod a_day)%Z <> r0) by (destruct Hr; congruence).
      split; [|exact H3]. split; [apply refreshed_next; auto|].
      intros b' Hb'. apply refreshed_next in Hb' as [Hb'|[_ Hb']]; auto. contradiction.
    - right. split; [|exact H2]. destruct Hr as [Hr|Hr]; [left; exact Hr|]. destruct H1 as [H1|H1]; [left; exact H1|].
      right. intros b Hb. apply refreshed_next in Hb as [Hb|[_ Hb]]; auto. exact (H1 b Hb).
  Qed.

  Lemma last_refreshed : forall t, (ten | t - first)%Z -> (first <= t)%Z -> (t mod a_day)%Z = r0 ->
    last_of (refreshed r0 first (t + ten)) t.
  Proof.
    intros t Ht Hf Hr. split; [apply refreshed_next; auto|].
    intros b' Hb'. apply refreshed_next in Hb' as [(_ & Hb' & _)|[-> _]]; auto; lia.
  Qed.

  Lemma ind_step_ok : forall k s, ind_inv k s ->
    exists s' k', ind_step cmp d u s = Ok s' /\ ind_inv k' s' /\ ticks s' = (ticks s + 1)%Z /\
      forall q b, at_ (user s) q b -> exists b', at_ (user s') q b' /\
        ind_moves d ((now s mod a_day)%Z = r0) k (u (ticks s) q) b b'.
  Proof.
    intros k [t st tk l] (Hnow & Htk & Hst & Hm & Hl & Hlen & Hk). cbn [now step_size ticks user] in *.
    destruct (step_all_ok string subgroup (id_load d) k (u tk) l 0 Hl (draws tk)) as (l1 & El1 & Hl1 & Hk1 & Hn1 & Hq1).
    assert (Hdiv : (ten | t - first)%Z) by (exists tk; lia). assert (Hge : (first <= t)%Z) by (unfold ten in *; nia).
    assert (Hlen1 : length l1 = length l) by (rewrite <- (map_length (@b_key _ _) l1), Hk1, map_length; reflexivity).
    unfold ind_step, tstep. cbn [user ticks now step_size]. rewrite El1. cbn [bind].
    assert (Hmid : forall q b, at_ l q b -> exists b1 tpms labels pdf m, at_ l1 q b1 /\ id_load d (b_key b) = Ok (tpms, labels, pdf) /\
      b_key b1 = b_key b /\ c_labels (b_chain b) = labels /\ c_labels (b_chain b1) = labels /\ at_ tpms (k mod length tpms) m /\
      moves m (u tk q) (c_states (b_chain b)) (c_states (b_chain b1))).
    { intros q b Hb. destruct (Hq1 q b Hb) as (b1 & H1 & H2 & H3 & H4).
      rewrite Forall_forall in Hl. destruct (Hl b (at_in _ _ _ _ Hb)) as (tpms & labels & pdf & E & (Hne & _) & _ & Hlab & _).
      assert (Hlt : (k mod length tpms < length tpms)%nat) by (apply Nat.mod_upper_bound; rewrite length_zero_iff_nil; exact Hne).
      destruct (lt_at _ _ _ Hlt) as [m Hmm]. exists b1, tpms, labels, pdf, m.
      split; [exact H1|]. split; [exact E|]. split; [exact H2|]. split; [exact Hlab|]. split; [congruence|]. split; [exact Hmm|].
      eapply H4; eauto. }
    assert (Hback : forall q b1, at_ l1 q b1 -> exists b, at_ l q b /\ b_key b1 = b_key b /\ c_n (b_chain b1) = c_n (b_chain b)).
    { intros q b1 H1. pose proof (at_lt _ _ _ _ H1) as Hlt. rewrite Hlen1 in Hlt. destruct (lt_at _ _ _ Hlt) as [b Hb]. exists b.
      split; [exact Hb|]. destruct (Hmid q b Hb) as (b1' & _ & _ & _ & _ & G1 & _ & G2 & _). rewrite (at_fun _ _ _ _ _ H1 G1) in *.
      split; [exact G2|]. eapply at_sizes; [exact Hn1|exact Hb|exact G1]. }
    assert (Hkeep : (id_aware d = false \/ (t mod a_day)%Z <> r0) ->
      exists s' k', Ok (mkT (t + st) st (tk + 1) l1) = Ok s' /\ ind_inv k' s' /\ ticks s' = (tk + 1)%Z /\
        forall q b, at_ l q b -> exists b', at_ (user s') q b' /\ ind_moves d ((t mod a_day)%Z = r0) k (u tk q) b b').
    { intros Hsame. do 2 eexists. split; [reflexivity|]. unfold ind_inv. cbn [now step_size ticks user].
      split; [|split; [reflexivity|]].
      - split; [lia|]. split; [lia|]. split; [exact Hst|]. rewrite Hst. split; [apply renewed_keep; eauto|]. split; [exact Hl1|].
        split; [congruence|]. intros q b1 g n H1 Hg. destruct (Hback q b1 H1) as (b & Hb & E1 & E2).
        destruct (Hk q b g n Hb Hg) as [G1 G2]. split; [rewrite E1; apply key_keep; auto|congruence].
      - intros q b Hb. destruct (Hmid q b Hb) as (b1 & tpms & labels & pdf & m & H1 & H2 & H3 & H4 & H5 & H6 & H7).
        exists b1. split; [exact H1|]. exists tpms, labels, pdf, tpms, labels, pdf, m, (c_states (b_chain b1)).
        split; [exact H2|]. split; [rewrite H3; exact H2|]. repeat (split; [assumption|]). right. auto. }
    change (time_of_day t) with (t mod a_day)%Z. destruct (Z.eqb_spec (t mod a_day) r0) as [Hr|Hr].
    2:{ apply Hkeep. right. exact Hr. }
    unfold ind_refresh. destruct (id_aware d) eqn:Ha. 2:{ apply Hkeep. left. reflexivity. }
    clear Hkeep. cbn [now step_size ticks user]. rewrite Hst.
    destruct (keys_renewed (t + ten) l1) as (keys & Ek & Hkl & Hkd).
    { unfold ten; lia. } { congruence. }
    { intros q b1 g n H1 Hg. destruct (Hback q b1 H1) as (b & Hb & E1 & E2). exists t. rewrite E1, Ha. apply (Hk q b g n Hb Hg). }
    rewrite Ek. cbn [bind].
    destruct (renew_all (S k) l1 keys Hl1 Hkl) as (l2 & El2 & Hl2 & Hlen2 & Hs2 & Hq2).
    { apply Forall_forall. intros key Hkey. apply in_at in Hkey as [q Hq]. pose proof (at_lt _ _ _ _ Hq) as Hlt. rewrite Hkl, Hlen1, Hlen in Hlt.
      destruct (lt_at _ _ _ Hlt) as [[g n] Hg]. destruct (tables g n (at_in _ _ _ _ Hg)) as (_ & _ & _ & Ht). eapply Ht, Hkd; eauto. }
    rewrite El2. cbn [bind]. do 2 eexists. split; [reflexivity|]. unfold ind_inv. cbn [now step_size ticks user].
    split; [|split; [reflexivity|]].
    - split; [lia|]. split; [lia|]. split; [reflexivity|]. split; [|split; [exact Hl2|split; [congruence|]]].
      + left. split; [exact Ha|]. exists t. split; [apply last_refreshed; auto|lia].
      + intros q b2 g n H2 Hg. pose proof (at_lt _ _ _ _ H2) as Hlt. rewrite Hlen2 in Hlt. destruct (lt_at _ _ _ Hlt) as [b1 H1].
        destruct (Hback q b1 H1) as (b & Hb & E1 & E2). rewrite <- Hkl in Hlt. destruct (lt_at _ _ _ Hlt) as [key Hkey].
        destruct (Hq2 q b1 key H1 Hkey) as (b2' & G1 & G2 & _). rewrite (at_fun _ _ _ _ _ H2 G1) in *. split.
        * left. split; [exact Ha|]. exists t. split; [apply last_refreshed; auto|]. rewrite G2. eapply Hkd; eauto.
        * rewrite (at_sizes l1 l2 q b1 b2' Hs2 H1 G1), E2. apply (Hk q b g n Hb Hg).
    - intros q b Hb. destruct (Hmid q b Hb) as (b1 & tpms & labels & pdf & m & H1 & H2 & H3 & H4 & H5 & H6 & H7).
      pose proof (at_lt _ _ _ _ H1) as Hlt. rewrite <- Hkl in Hlt. destruct (lt_at _ _ _ Hlt) as [key Hkey].
      destruct (Hq2 q b1 key H1 Hkey) as (b2 & G1 & G2 & G3). exists b2. split; [exact G1|].
      rewrite Forall_forall in Hl2. destruct (Hl2 b2 (at_in _ _ _ _ G1)) as (tpms' & labels' & pdf' & E & _ & _ & Hlab' & _).
      exists tpms, labels, pdf, tpms', labels', pdf', m, (c_states (b_chain b1)).
      split; [exact H2|]. split; [exact E|]. split; [exact H4|]. split; [exact Hlab'|]. split; [exact H6|]. split; [exact H7|].
      left. split; [exact Ha|]. split; [exact Hr|]. rewrite H5, Hlab' in G3. exact G3.
  Qed.

  Lemma ind_run_ok : forall m k s, ind_inv k s ->
    exists s' k', iterate m (ind_step cmp d u) s = Ok s' /\ ind_inv k' s' /\ ticks s' = (ticks s + Z.of_nat m)%Z.
  Proof.
    induction m as [|m IH]; intros k s H.
    - exists s, k. split; [reflexivity|]. split; [exact H|lia].
    - destruct (ind_step_ok k s H) as (s1 & k1 & E1 & H1 & Ht1 & _).
      destruct (IH k1 s1 H1) as (s2 & k2 & E2 & H2 & Ht2). exists s2, k2. cbn [iterate]. rewrite E1. cbn [bind].
      split; [exact E2|]. split; [exact H2|lia].
  Qed.
End Ind.

(** ** Construction *)
Section IndMade.
  Variables (cmp : string -> string -> comparison) (d : ind_data) (kind : day_types) (u : Z -> nat -> nat -> Q) (v : nat -> nat -> Q).
  Variables (persons : list (subgroup * nat)) (start : Z) (kw : option Z).
  Hypothesis ord : total_order cmp.
  Hypothesis flagged : flags kind = ind_flags d.
  Hypothesis tables : ind_tables d kind persons.
  Hypothesis draws : forall t q, unit_draws (u t q).
  Hypothesis draws0 : forall q, unit_draws (v q).
  Hypothesis refresh : (0 <= id_refresh d < a_day)%Z.
  Hypothesis late : (a_day <= start)%Z.

  Lemma ind_make_ok : persons <> [] -> (forall z, kw = Some z -> z = ten) ->
    exists s0 k, ind_make cmp d persons start kw v u = Ok s0 /\
      ind_inv d kind (start - ticks s0 * ten) persons k s0 /\ now s0 = start /\ (0 <= start - ticks s0 * ten)%Z /\
      (exists b, latest_occurrence (id_refresh d) start b /\ whole_steps ten b start (ticks s0)) /\
      exists z0, now z0 = (start - ticks s0 * ten)%Z /\ ticks z0 = 0%Z /\ step_size z0 = ten /\
        iterate (Z.to_nat (ticks s0)) (ind_step cmp d u) z0 = Ok s0 /\
        map (fun b => (b_key b, c_n (b_chain b))) (user z0) = persons /\
        forall q b tpms labels pdf j x, at_ (user z0) q b -> id_load d (b_key b) = Ok (tpms, labels, pdf) ->
          c_labels (b_chain b) = labels /\ (at_ (c_states (b_chain b)) j x -> selects pdf (v q j) x).
  Proof.
    intros Hne Hkw. unfold ind_make.
    destruct (make_subs_ok string subgroup (id_load d) (fun _ labels => length labels) v persons 0) as (bs & Eb & Hbs & Hkeys & Hsel).
    { intros g n H. destruct (tables g n H) as (_ & H1 & H2 & _). auto. } { exact draws0. } { reflexivity. }
    rewrite Eb. cbn [bind].
    assert (Hsum : (0 < list_sum (map (fun b => c_n (b_chain b)) bs))%nat).
    { destruct persons as [|[g n] ps]; [congruence|]. destruct bs as [|b bs]; [discriminate|]. injection Hkeys as Hk1 Hk2 Hk3.
      destruct (tables g n (or_introl eq_refl)) as (_ & Hn & _). cbn [map list_sum fold_right]. rewrite Hk2. lia. }
    destruct (Nat.eqb_spec (list_sum (map (fun b => c_n (b_chain b)) bs)) 0); [lia|].
    replace (match kw with Some z => negb (z =? ten_minutes)%Z | None => false end) with false.
    2:{ destruct kw as [z|]; [|reflexivity]. rewrite (Hkw z eq_refl). reflexivity. }
    unfold t_initialize. cbn [now step_size user].
    destruct (init_datetime (AtTime (id_refresh d)) start) as [b|e] eqn:Ei; [|discriminate].
    apply init_datetime_resolves in Ei as [Hres Hle]; [|intros t Ht; injection Ht as <-; unfold us_per_day, a_day in *; lia].
    assert (Hb0 : (0 <= b)%Z).
    { destruct Hres as (_ & H2 & H3). assert (Hx : (id_refresh d <= b)%Z); [|lia]. apply H3; [unfold us_per_day; apply Z.mod_small; unfold a_day in refresh; lia|]. unfold a_day in *; lia. }
    cbn [bind]. change (ten_minutes =? 0)%Z with false. cbn iota. change ten_minutes with ten.
    rewrite Z.quot_div_nonneg by (unfold ten; lia).
    set (q := ((start - b) / ten)%Z). assert (Hq : (0 <= q)%Z) by (unfold q, ten; lia).
    destruct (Z.ltb_spec q 0); [lia|]. set (first := (b + (start - b) mod ten)%Z).
    assert (Hfirst : (start = first + q * ten)%Z).
    { unfold first, q. pose proof (Z.div_mod (start - b) ten ltac:(unfold ten; lia)). lia. }
    assert (Hf0 : (0 <= first)%Z) by (unfold first; pose proof (Z.mod_pos_bound (start - b) ten ltac:(unfold ten; lia)); lia).
    assert (Hinv : ind_inv d kind first persons 1 (mkT first ten 0 bs)).
    { unfold ind_inv. cbn [now step_size ticks user]. split; [lia|]. split; [lia|]. split; [reflexivity|].
      assert (Hno : forall b, ~ refreshed (id_refresh d) first first b) by (intros x (_ & Hx & _); lia).
      split; [right; split; [right; exact Hno|lia]|]. split; [exact Hbs|].
      split; [rewrite <- Hkeys, map_length; reflexivity|]. intros p x g m Hx Hg. rewrite <- Hkeys in Hg. unfold at_ in *.
      rewrite nth_error_map, Hx in Hg. injection Hg as <- <-. split; [|reflexivity]. right. split; [right; exact Hno|reflexivity]. }
    destruct (ind_run_ok cmp d kind u first persons ord flagged tables draws Hf0 (Z.to_nat q) 1 _ Hinv) as (s' & k' & E & Hinv' & Ht).
    cbn [ticks] in Ht. rewrite Z2Nat.id in Ht by exact Hq.
    exists s', k'. split; [exact E|]. replace (start - ticks s' * ten)%Z with first by (rewrite Ht; lia).
    split; [exact Hinv'|]. split; [destruct Hinv' as [-> _]; rewrite Ht; lia|]. split; [exact Hf0|].
    split; [exists b; split; [exact Hres|]; unfold whole_steps; rewrite Ht; clear - Hle; unfold q, ten in *; lia|].
    exists (mkT first ten 0 bs). cbn [now ticks step_size user]. split; [reflexivity|]. split; [reflexivity|]. split; [reflexivity|].
    split; [rewrite Ht; exact E|]. split; [exact Hkeys|].
    intros p x tpms labels pdf j y Hx El. split; [|intros Hy; exact (Hsel p x tpms labels pdf j y Hx El Hy)].
    rewrite Forall_forall in Hbs. destruct (Hbs x (at_in _ _ _ _ Hx)) as (tpms' & labels' & pdf' & El' & _ & _ & Hlab & _). congruence.
  Qed.

  Lemma ind_made : forall s0, ind_make cmp d persons start kw v u = Ok s0 ->
    exists k, persons <> [] /\ (forall z, kw = Some z -> z = ten) /\ 
      ind_inv d kind (start - ticks s0 * ten) persons k s0 /\ now s0 = start /\ (0 <= start - ticks s0 * ten)%Z /\
      (exists b, latest_occurrence (id_refresh d) start b /\ whole_steps ten b start (ticks s0)) /\
      exists z0, now z0 = (start - ticks s0 * ten)%Z /\ ticks z0 = 0%Z /\ step_size z0 = ten /\
        iterate (Z.to_nat (ticks s0)) (ind_step cmp d u) z0 = Ok s0 /\
        map (fun b => (b_key b, c_n (b_chain b))) (user z0) = persons /\
        forall q b tpms labels pdf j x, at_ (user z0) q b -> id_load d (b_key b) = Ok (tpms, labels, pdf) ->
          c_labels (b_chain b) = labels /\ (at_ (c_states (b_chain b)) j x -> selects pdf (v q j) x).
  Proof.
    intros s0 E. pose proof E as E0. unfold ind_make in E. destruct (make_subs _ _ _ _ _) as [l|] eqn:El; [|discriminate]. cbn [bind] in E.
    assert (Hne : persons <> []) by (intros ->; injection El as <-; discriminate).
    assert (Hkw : forall z, kw = Some z -> z = ten).
    { intros z ->. destruct (_ =? 0)%nat; [discriminate|]. destruct (Z.eqb_spec z ten_minutes); [assumption|discriminate]. }
    destruct (ind_make_ok Hne Hkw) as (s & k & E' & H). rewrite E' in E0. injection E0 as <-. exists k. split; [exact Hne|]. split; [exact Hkw|]. exact H.
  Qed.
End IndMade.
