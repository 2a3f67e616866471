(** * Proofs about Crest4StatesModel. *)

From Coq Require Import String List ZArith QArith Bool Arith Lia.
From Coq Require Import ZifyBool ZifyNat.
From Verif Require Import Prelude PreludeFacts SpecBase SpecBaseFacts Sampling_Model Sampling_Spec Sampling_Proofs Parse_Model Parse_Spec
  Sparse_Model Activity_Model Activity_Spec Activity_Proofs Activity_LabelProofs Activity_HouseProofs Time_Model Time_Spec Time_Proofs
  Subgroup_Model Switch_Model Switch_Spec Switch_ObsSpec Switch_Proofs.
Import ListNotations.

Ltac Zify.zify_post_hook ::= Z.div_mod_to_equations.

Lemma alike_cases : forall t, alike t = [1; 2; 3; 4; 5]%Z \/ alike t = [6; 7]%Z.
Proof. intros t. unfold alike. destruct (_ <? _)%Z; auto. Qed.

Lemma weekdays_cases : forall k, weekdays_of k = [1; 2; 3; 4; 5]%Z \/ weekdays_of k = [6; 7]%Z.
Proof. intros [|]; auto. Qed.

Section Crest.
  Variables (d : crest_data) (u : Z -> nat -> nat -> Q) (start first : Z).
  Hypothesis tables : crest_tables d.
  Hypothesis draws : forall t q, unit_draws (u t q).

  Notation r0 := (cd_refresh d).
  Notation load k := (fun r => cd_load d r (weekdays_of k)) (only parsing).

  Definition crest_inv (k : nat) (s : tsim crest_state) : Prop :=
    now s = (first + ticks s * ten)%Z /\ (0 <= ticks s)%Z /\ step_size s = ten /\
    in_force r0 start first (now s) (weekdays_of (cs_type (user s))) /\
    matrix_number r0 start first (now s) k /\
    Forall (sub_ok Z Z (load (cs_type (user s))) k) (cs_subs (user s)) /\
    (forall b, In b (cs_subs (user s)) -> In (b_key b) (cd_residents d)).

  Lemma keys_at : forall l l' : list (sub Z Z), map (@b_key Z Z) l' = map (@b_key Z Z) l ->
    map (fun b => c_n (b_chain b)) l' = map (fun b => c_n (b_chain b)) l ->
    map (fun b => (b_key b, c_n (b_chain b))) l' = map (fun b => (b_key b, c_n (b_chain b))) l.
  Proof.
    induction l as [|b l IH]; intros [|b' l'] H1 H2; try discriminate; [reflexivity|].
    cbn [map] in *. injection H1 as H1 H1'. injection H2 as H2 H2'. rewrite H1, H2, (IH l'); auto.
  Qed.

  Lemma keys_in : forall l l' : list (sub Z Z), map (fun b => (b_key b, c_n (b_chain b))) l' = map (fun b => (b_key b, c_n (b_chain b))) l ->
    (forall b, In b l -> In (b_key b) (cd_residents d)) -> forall b, In b l' -> In (b_key b) (cd_residents d).
  Proof.
    intros l l' E H b Hb. apply (in_map (fun b => (b_key b, c_n (b_chain b)))) in Hb. rewrite E in Hb. apply in_map_iff in Hb as (b0 & Hb0 & Hin).
    injection Hb0 as Hk _. rewrite <- Hk. auto.
  Qed.

  Lemma good_tables : forall r k, In r (cd_residents d) -> good_load Z Z (load k) r.
  Proof.
    intros r k Hr. destruct (tables r (weekdays_of k) Hr (weekdays_cases k)) as (tpms & labels & pdf & E & Hf & _).
    exists tpms, labels, pdf. auto.
  Qed.

  Lemma new_all_ok : forall k k' n l, Forall (sub_ok Z Z (load k) n) l -> (forall b, In b l -> In (b_key b) (cd_residents d)) ->
    exists l', mapM (fun b => new_tables Z.compare (load k') b (b_key b)) l = Ok l' /\ Forall (sub_ok Z Z (load k') 1) l' /\
      map (fun b => (b_key b, c_n (b_chain b))) l' = map (fun b => (b_key b, c_n (b_chain b))) l /\
      forall q b, at_ l q b -> exists b', at_ l' q b' /\ b_key b' = b_key b /\
        relabelled (c_labels (b_chain b)) (c_labels (b_chain b')) (c_states (b_chain b)) (c_states (b_chain b')).
  Proof.
    intros k k' n. induction l as [|b l IH]; intros Hl Hk.
    - exists []. split; [reflexivity|]. split; [constructor|]. split; [reflexivity|]. intros [|q] b H; discriminate.
    - inversion Hl as [|? ? Hb Hl']; subst.
      destruct (new_tables_ok Z Z Z.compare Z_order (load k) (load k') n b (b_key b) Hb (good_tables _ k' (Hk b (or_introl eq_refl))))
        as (b' & Eb & Hok & Hkey & Hn & Hrel).
      destruct (IH Hl' (fun b0 H => Hk b0 (or_intror H))) as (l' & El & Hok' & Hkeys & Hq).
      exists (b' :: l'). cbn [mapM]. rewrite Eb. cbn [bind]. rewrite El. cbn [bind]. split; [reflexivity|].
      split; [constructor; assumption|]. split; [cbn [map]; rewrite Hkey, Hn, Hkeys; reflexivity|].
      intros [|q] b0 H; [injection H as <-; exists b'; split; [reflexivity|]; auto|exact (Hq q b0 H)].
  Qed.

  Lemma crest_step_ok : forall k s, crest_inv k s ->
    exists s' k', crest_step d u s = Ok s' /\ crest_inv k' s' /\ ticks s' = (ticks s + 1)%Z /\ keys (user s') = keys (user s) /\
      cs_residents (user s') = cs_residents (user s) /\
      forall q b, at_ (cs_subs (user s)) q b -> exists b', at_ (cs_subs (user s')) q b' /\
        sub_moves d (weekdays_of (cs_type (user s))) (weekdays_of (cs_type (user s'))) k (u (ticks s) q) b b'.
  Proof.
    intros k [t st tk [ty l res]] (Hnow & Htk & Hst & Hin & Hm & Hl & Hk). cbn [now step_size ticks user cs_type cs_subs cs_residents] in *.
    destruct (step_all_ok Z Z (load ty) k (u tk) l 0 Hl (draws tk)) as (l1 & El1 & Hl1 & Hk1 & Hn1 & Hq1).
    pose proof (keys_at _ _ Hk1 Hn1) as Hkeys1. pose proof (keys_in _ _ Hkeys1 Hk) as Hin1.
    assert (Hdiv : (ten | t - first)%Z) by (exists tk; lia). assert (Hge : (first <= t)%Z) by (unfold ten in *; nia).
    unfold crest_step, tstep. cbn [user ticks now step_size cs_type cs_subs cs_residents]. rewrite El1. cbn [bind].
    assert (Hmid : forall q b, at_ l q b -> exists b1 tpms labels pdf m, at_ l1 q b1 /\ cd_load d (b_key b) (weekdays_of ty) = Ok (tpms, labels, pdf) /\
      b_key b1 = b_key b /\ c_labels (b_chain b) = labels /\ c_labels (b_chain b1) = labels /\ at_ tpms (k mod length tpms) m /\
      moves m (u tk q) (c_states (b_chain b)) (c_states (b_chain b1))).
    { intros q b Hb. destruct (Hq1 q b Hb) as (b1 & H1 & H2 & H3 & H4).
      rewrite Forall_forall in Hl. destruct (Hl b (at_in _ _ _ _ Hb)) as (tpms & labels & pdf & E & (Hne & _) & _ & Hlab & _).
      assert (Hlt : (k mod length tpms < length tpms)%nat) by (apply Nat.mod_upper_bound; rewrite length_zero_iff_nil; exact Hne).
      destruct (lt_at _ _ _ Hlt) as [m Hmm]. exists b1, tpms, labels, pdf, m.
      split; [exact H1|]. split; [exact E|]. split; [exact H2|]. split; [exact Hlab|]. split; [congruence|]. split; [exact Hmm|].
      eapply H4; eauto. }
    assert (Hkeep : ((t mod a_day)%Z = r0 -> weekdays_of ty = alike (t + ten)) ->
      exists s' k', Ok (mkT (t + st) st (tk + 1) (mkCrest ty l1 res)) = Ok s' /\ crest_inv k' s' /\ ticks s' = (tk + 1)%Z /\
        keys (user s') = map (fun b => (b_key b, c_n (b_chain b))) l /\ cs_residents (user s') = res /\
        forall q b, at_ l q b -> exists b', at_ (cs_subs (user s')) q b' /\
          sub_moves d (weekdays_of ty) (weekdays_of (cs_type (user s'))) k (u tk q) b b').
    { intros Hsame. do 2 eexists. split; [reflexivity|]. unfold crest_inv, keys. cbn [now step_size ticks user cs_type cs_subs cs_residents].
      split; [|split; [reflexivity|split; [exact Hkeys1|split; [reflexivity|]]]].
      - split; [lia|]. split; [lia|]. split; [exact Hst|]. rewrite Hst. split; [|split; [|split; [exact Hl1|exact Hin1]]].
        + destruct (Z.eq_dec (t mod a_day) r0) as [Hr|Hr].
          * rewrite (Hsame Hr). apply in_force_refresh; auto.
          * apply in_force_keep; auto.
        + eapply matrix_keep; eauto.
      - intros q b Hb. destruct (Hmid q b Hb) as (b1 & tpms & labels & pdf & m & H1 & H2 & H3 & H4 & H5 & H6 & H7).
        exists b1. split; [exact H1|]. exists tpms, labels, pdf, tpms, labels, pdf, m, (c_states (b_chain b1)).
        repeat (split; [assumption|]). left. auto. }
    change (time_of_day t) with (t mod a_day)%Z.
    destruct (Z.eqb_spec (t mod a_day) r0) as [Hr|Hr].
    2:{ apply Hkeep. intros; contradiction. }
    unfold crest_refresh. cbn [now step_size ticks user cs_type cs_subs cs_residents]. rewrite Hst.
    destruct (day_type_eqb (day_type_at (t + ten)) ty) eqn:Et; cbn [negb].
    - rewrite Hst in Hkeep. apply Hkeep. intros _. rewrite alike_type. destruct (day_type_at (t + ten)), ty; try reflexivity; discriminate.
    - assert (Hty : day_type_at (t + ten) <> ty) by (intros <-; destruct (day_type_at (t + ten)); discriminate).
      replace (if (isoweekday (t + ten) <=? 5)%Z then [1; 2; 3; 4; 5]%Z else [6; 7]%Z) with (weekdays_of (day_type_at (t + ten)))
        by (unfold day_type_at; destruct (isoweekday (t + ten) <=? 5)%Z; reflexivity).
      destruct (new_all_ok ty (day_type_at (t + ten)) (S k) l1 Hl1 Hin1) as (l2 & El2 & Hl2 & Hkeys2 & Hq2).
      rewrite El2. cbn [bind]. do 2 eexists. split; [reflexivity|]. unfold crest_inv, keys.
      cbn [now step_size ticks user cs_type cs_subs cs_residents].
      assert (Hne : weekdays_of ty <> alike (t + ten)) by (rewrite alike_type; intro H; apply weekdays_inj in H; congruence).
      split; [|split; [reflexivity|split; [rewrite Hkeys2; exact Hkeys1|split; [reflexivity|]]]].
      + split; [lia|]. split; [lia|]. split; [reflexivity|]. rewrite <- alike_type. split; [apply in_force_refresh; auto|].
        split; [eapply matrix_change; eauto|]. split; [rewrite alike_type; exact Hl2|]. eapply keys_in; eauto.
      + intros q b Hb. destruct (Hmid q b Hb) as (b1 & tpms & labels & pdf & m & H1 & H2 & H3 & H4 & H5 & H6 & H7).
        destruct (Hq2 q b1 H1) as (b2 & G1 & G2 & G3). exists b2. split; [exact G1|].
        rewrite Forall_forall in Hl2. destruct (Hl2 b2 (at_in _ _ _ _ G1)) as (tpms' & labels' & pdf' & E & _ & _ & Hlab' & _).
        cbn beta in E. rewrite G2, H3 in E.
        exists tpms, labels, pdf, tpms', labels', pdf', m, (c_states (b_chain b1)).
        split; [exact H2|]. split; [exact E|]. split; [congruence|]. split; [exact H4|]. split; [exact Hlab'|].
        split; [exact H6|]. split; [exact H7|]. right. split; [rewrite <- alike_type; congruence|]. rewrite H5, Hlab' in G3. exact G3.
  Qed.

  Lemma crest_run_ok : forall m k s, crest_inv k s ->
    exists s' k', iterate m (crest_step d u) s = Ok s' /\ crest_inv k' s' /\ ticks s' = (ticks s + Z.of_nat m)%Z /\
      keys (user s') = keys (user s) /\ cs_residents (user s') = cs_residents (user s).
  Proof.
    induction m as [|m IH]; intros k s H.
    - exists s, k. split; [reflexivity|]. split; [exact H|]. split; [lia|auto].
    - destruct (crest_step_ok k s H) as (s1 & k1 & E1 & H1 & Ht1 & Hk1 & Hr1 & _).
      destruct (IH k1 s1 H1) as (s2 & k2 & E2 & H2 & Ht2 & Hk2 & Hr2). exists s2, k2. cbn [iterate]. rewrite E1. cbn [bind].
      split; [exact E2|]. split; [exact H2|]. split; [lia|]. split; congruence.
  Qed.
End Crest.

(** ** Construction *)

Lemma expand_filter : forall (rs : list Z) (ns : list nat), length rs = length ns ->
  concat (map (fun p => repeat (fst p) (snd p)) (filter (fun p => (0 <? snd p)%nat) (combine rs ns))) = expand_residents rs ns.
Proof.
  induction rs as [|r rs IH]; intros [|[|n] ns] H; try discriminate; [reflexivity| |]; injection H as H.
  - change (combine (r :: rs) (0%nat :: ns)) with ((r, 0%nat) :: combine rs ns). cbn [filter snd]. change (0 <? 0)%nat with false. cbn iota. rewrite (IH ns H). reflexivity.
  - change (combine (r :: rs) (S n :: ns)) with ((r, S n) :: combine rs ns). cbn [filter snd].
    replace (0 <? S n)%nat with true by (symmetry; apply Nat.ltb_lt; lia). cbn [map concat]. rewrite (IH ns H). reflexivity.
Qed.

Lemma sampled_ok : forall rs ns gs, sampled rs ns = Ok gs <->
  length rs = length ns /\ gs = filter (fun p => (0 <? snd p)%nat) (combine rs ns).
Proof.
  intros rs ns gs. unfold sampled. destruct (Nat.eqb_spec (length rs) (length ns)) as [E|E]; cbn [negb]; split.
  - intros H. injection H as <-. auto.
  - intros [_ ->]. reflexivity.
  - discriminate.
  - intros [H _]. contradiction.
Qed.

Lemma list_sum_filter : forall (rs : list Z) ns, length rs = length ns ->
  list_sum (map snd (filter (fun p => (0 <? snd p)%nat) (combine rs ns))) = total_nat ns.
Proof.
  induction rs as [|r rs IH]; intros [|[|n] ns] H; try discriminate; [reflexivity| |]; injection H as H.
  - change (combine (r :: rs) (0%nat :: ns)) with ((r, 0%nat) :: combine rs ns). cbn [filter snd]. change (0 <? 0)%nat with false. cbn iota. rewrite (IH ns H). reflexivity.
  - change (combine (r :: rs) (S n :: ns)) with ((r, S n) :: combine rs ns). cbn [filter snd].
    replace (0 <? S n)%nat with true by (symmetry; apply Nat.ltb_lt; lia). cbn [map list_sum fold_right snd].
    change (fold_right Nat.add 0%nat) with list_sum. rewrite (IH ns H). reflexivity.
Qed.

Section Made.
  Variables (d : crest_data) (u : Z -> nat -> nat -> Q) (start : Z) (algo : sampling_algo) (w : list Q) (v : nat -> nat -> Q).
  Hypothesis tables : crest_tables d.
  Hypothesis draws : forall t q, unit_draws (u t q).
  Hypothesis draws0 : forall q, unit_draws (v q).
  Hypothesis refresh : (0 <= cd_refresh d < a_day)%Z.

  Lemma crest_make_ok : forall n counts, sample_population n (cd_pdf d) algo w = Ok counts ->
    length counts = length (cd_residents d) -> length w = n -> (0 < n)%nat ->
    exists s0 k, crest_make n d start algo false w v u = Ok s0 /\
      crest_inv d start (start - ticks s0 * ten) k s0 /\ now s0 = start /\
      (exists b, latest_occurrence (cd_refresh d) start b /\ whole_steps ten b start (ticks s0)) /\
      keys (user s0) = filter (fun p => (0 <? snd p)%nat) (combine (cd_residents d) counts) /\
      cs_residents (user s0) = expand_residents (cd_residents d) counts /\
      exists z0, now z0 = (start - ticks s0 * ten)%Z /\ ticks z0 = 0%Z /\ step_size z0 = ten /\ keys (user z0) = keys (user s0) /\
        iterate (Z.to_nat (ticks s0)) (crest_step d u) z0 = Ok s0 /\
        forall q b tpms labels pdf j x, at_ (cs_subs (user z0)) q b -> cd_load d (b_key b) (alike start) = Ok (tpms, labels, pdf) ->
          c_labels (b_chain b) = labels /\ (at_ (c_states (b_chain b)) j x -> selects pdf (v q j) x).
  Proof.
    intros n counts Es Hlen Hw Hn. pose proof (sample_population_total n (cd_pdf d) algo w counts Hw Es) as Htot.
    unfold crest_make. rewrite Es. cbn [bind].
    assert (Eg : sampled (cd_residents d) counts = Ok (filter (fun p => (0 <? snd p)%nat) (combine (cd_residents d) counts)))
      by (apply sampled_ok; auto).
    rewrite Eg. cbn [bind]. set (groups := filter _ _) in *.
    assert (Hgr : forall g c, In (g, c) groups -> In g (cd_residents d) /\ (0 < c)%nat).
    { intros g c H. apply filter_In in H as [H1 H2]. split; [eapply in_combine_l; exact H1|]. cbn [snd] in H2. apply Nat.ltb_lt in H2. exact H2. }
    destruct (make_subs_ok Z Z (fun r => cd_load d r (weekdays_of (day_type_at start))) crest_size v groups 0) as (bs & Eb & Hbs & Hkeys & Hsel).
    { intros g c H. destruct (Hgr g c H). split; [|assumption]. apply good_tables; assumption. }
    { exact draws0. }
    { intros g c tpms labels pdf H E. destruct (Hgr g c H) as [Hg _].
      destruct (tables g (weekdays_of (day_type_at start)) Hg (weekdays_cases _)) as (t' & l' & p' & E' & _ & Hl).
      rewrite E in E'. injection E' as <- <- <-. unfold crest_size. rewrite <- Hl. lia. }
    rewrite Eb. cbn [bind].
    assert (Hsum : list_sum (map (fun b => c_n (b_chain b)) bs) = n).
    { rewrite <- Htot, <- (list_sum_filter (cd_residents d) counts) by congruence. fold groups. rewrite <- Hkeys, map_map. reflexivity. }
    rewrite Hsum. destruct (Nat.eqb_spec n 0); [lia|]. unfold groups at 1. rewrite (expand_filter (cd_residents d) counts) by congruence.
    set (s00 := mkCrest (day_type_at start) bs (expand_residents (cd_residents d) counts)).
    unfold t_initialize. cbn [now step_size user].
    destruct (init_datetime (AtTime (cd_refresh d)) start) as [b|e] eqn:Ei; [|discriminate].
    apply init_datetime_resolves in Ei as [Hres Hle]; [|intros t Ht; injection Ht as <-; unfold us_per_day, a_day in *; lia].
    cbn [bind]. change (ten_minutes =? 0)%Z with false. cbn iota. change ten_minutes with ten.
    rewrite Z.quot_div_nonneg by (unfold ten; lia).
    set (q := ((start - b) / ten)%Z). assert (Hq : (0 <= q)%Z) by (unfold q, ten; lia).
    destruct (Z.ltb_spec q 0); [lia|]. set (first := (b + (start - b) mod ten)%Z).
    assert (Hfirst : (start = first + q * ten)%Z).
    { unfold first, q. pose proof (Z.div_mod (start - b) ten ltac:(unfold ten; lia)). lia. }
    assert (Hinv : crest_inv d start first 1 (mkT first ten 0 s00)).
    { unfold crest_inv. cbn [now step_size ticks user s00 cs_type cs_subs]. split; [lia|]. split; [lia|]. split; [reflexivity|].
      split; [rewrite <- alike_type; apply in_force_first|]. split; [apply matrix_first|]. split; [exact Hbs|].
      intros x Hx. apply (in_map (fun b => (b_key b, c_n (b_chain b)))) in Hx. rewrite Hkeys in Hx. eapply Hgr; exact Hx. }
    destruct (crest_run_ok d u start first tables draws (Z.to_nat q) 1 _ Hinv) as (s' & k' & E & Hinv' & Ht & Hk' & Hr').
    cbn [ticks user s00] in Ht, Hk', Hr'. rewrite Z2Nat.id in Ht by exact Hq.
    exists s', k'. split; [exact E|]. replace (start - ticks s' * ten)%Z with first by (rewrite Ht; lia).
    split; [exact Hinv'|]. split; [destruct Hinv' as [-> _]; rewrite Ht; lia|]. split; [|split; [|split; [exact Hr'|]]].
    - exists b. split; [exact Hres|]. unfold whole_steps. rewrite Ht. clear - Hle. unfold q, ten in *. lia.
    - rewrite Hk'. unfold keys. cbn [s00 cs_subs]. exact Hkeys.
    - exists (mkT first ten 0 s00). cbn [now ticks step_size user s00 cs_subs]. split; [reflexivity|]. split; [reflexivity|]. split; [reflexivity|].
      split; [symmetry; exact Hk'|]. split; [rewrite Ht; exact E|].
      intros p x tpms labels pdf j y Hx El. rewrite alike_type in El. split; [|intros Hy; exact (Hsel p x tpms labels pdf j y Hx El Hy)].
      rewrite Forall_forall in Hbs. destruct (Hbs x (at_in _ _ _ _ Hx)) as (tpms' & labels' & pdf' & El' & _ & _ & Hlab & _). congruence.
  Qed.

  (** A successful construction is the one above. *)
  Lemma crest_made : forall n hs s0, length w = n -> crest_make n d start algo hs w v u = Ok s0 ->
    exists counts k, hs = false /\ sample_population n (cd_pdf d) algo w = Ok counts /\ length counts = length (cd_residents d) /\ (0 < n)%nat /\
      crest_inv d start (start - ticks s0 * ten) k s0 /\ now s0 = start /\
      (exists b, latest_occurrence (cd_refresh d) start b /\ whole_steps ten b start (ticks s0)) /\
      keys (user s0) = filter (fun p => (0 <? snd p)%nat) (combine (cd_residents d) counts) /\
      cs_residents (user s0) = expand_residents (cd_residents d) counts /\
      exists z0, now z0 = (start - ticks s0 * ten)%Z /\ ticks z0 = 0%Z /\ step_size z0 = ten /\ keys (user z0) = keys (user s0) /\
        iterate (Z.to_nat (ticks s0)) (crest_step d u) z0 = Ok s0 /\
        forall q b tpms labels pdf j x, at_ (cs_subs (user z0)) q b -> cd_load d (b_key b) (alike start) = Ok (tpms, labels, pdf) ->
          c_labels (b_chain b) = labels /\ (at_ (c_states (b_chain b)) j x -> selects pdf (v q j) x).
  Proof.
    intros n hs s0 Hw E. pose proof E as E0. unfold crest_make in E.
    destruct (sample_population n (cd_pdf d) algo w) as [counts|] eqn:Es; [|discriminate]. cbn [bind] in E.
    destruct (sampled (cd_residents d) counts) as [groups|] eqn:Eg; [|discriminate]. cbn [bind] in E.
    destruct (make_subs _ _ _ _ _) as [l|] eqn:El; [|discriminate]. cbn [bind] in E.
    destruct hs; [discriminate|]. apply sampled_ok in Eg as [Hlen ->].
    assert (Hn : (0 < n)%nat).
    { destruct n; [|lia]. exfalso. pose proof (sample_population_total 0 (cd_pdf d) algo w counts Hw Es) as Htot.
      assert (Hnil : filter (fun p : Z * nat => (0 <? snd p)%nat) (combine (cd_residents d) counts) = []).
      { assert (Hz : forall c, In c counts -> c = 0%nat).
        { clear - Htot. induction counts as [|x l IH]; intros c H; [contradiction|]. unfold total_nat in *. cbn [fold_right] in Htot. destruct H as [<-|H]; [lia|apply IH; [lia|exact H]]. }
        destruct (filter _ _) as [|p t] eqn:Ef; [reflexivity|]. exfalso.
        assert (Hp : In p (p :: t)) by (left; reflexivity). rewrite <- Ef in Hp. apply filter_In in Hp as [Hp1 Hp2]. destruct p as [z c].
        apply in_combine_r in Hp1. rewrite (Hz _ Hp1) in Hp2. discriminate. }
      rewrite Hnil in El. injection El as <-. cbn in E. discriminate. }
    destruct (crest_make_ok n counts Es (eq_sym Hlen) Hw Hn) as (s & k & E' & H). rewrite E' in E0. injection E0 as <-.
    exists counts, k. split; [reflexivity|]. split; [reflexivity|]. split; [congruence|]. split; [exact Hn|]. exact H.
  Qed.
End Made.

(** ** Labels *)

Lemma labels_one : forall load k (b : sub Z Z), sub_ok Z Z load k b ->
  exists ls, mapM (get_at (c_labels (b_chain b))) (c_states (b_chain b)) = Ok ls /\ length ls = c_n (b_chain b) /\
    (forall j lab, at_ ls j lab <-> exists x, at_ (c_states (b_chain b)) j x /\ at_ (c_labels (b_chain b)) x lab).
Proof.
  intros load k b (tpms & labels & pdf & El & Hf & Hit & Hl & Hs & Hn).
  destruct (mapM_get (c_labels (b_chain b)) (c_states (b_chain b))) as (ls & E & Hlen & Hk).
  { intros x Hx. apply in_at in Hx as [j Hj]. rewrite Hl. eapply Hs; exact Hj. }
  exists ls. split; [exact E|]. split; [congruence|]. intros j lab. split.
  - intros Hj. pose proof (at_lt _ _ _ _ Hj) as Hlt. rewrite Hlen in Hlt. destruct (lt_at _ _ _ Hlt) as [x Hx].
    destruct (Hk j x Hx) as (lab' & H1 & H2). rewrite (at_fun _ _ _ _ _ Hj H1). eauto.
  - intros (x & Hx & Hlab). destruct (Hk j x Hx) as (lab' & H1 & H2). rewrite (at_fun _ _ _ _ _ Hlab H2). exact H1.
Qed.

Lemma labels_all : forall load k (l : list (sub Z Z)), Forall (sub_ok Z Z load k) l ->
  exists lls, mapM (fun b => mapM (get_at (c_labels (b_chain b))) (c_states (b_chain b))) l = Ok lls /\
    (forall f, mapM (fun b => crest_get f (b_chain b)) l = Ok (map (map f) lls)) /\
    length (concat lls) = list_sum (map (fun b => c_n (b_chain b)) l) /\
    forall h lab r, at_ (concat lls) h lab -> at_ (concat (map (fun p => repeat (fst p) (snd p)) (map (fun b => (b_key b, c_n (b_chain b))) l))) h r ->
      exists tpms labels pdf, load r = Ok (tpms, labels, pdf) /\ In lab labels.
Proof.
  intros load k. induction l as [|b l IH]; intros Hl.
  - exists []. split; [reflexivity|]. split; [reflexivity|]. split; [reflexivity|]. intros [|h] lab r H; discriminate.
  - inversion Hl as [|? ? Hb Hl']; subst. destruct (IH Hl') as (lls & E & Hf & Hlen & Hk).
    destruct (labels_one load k b Hb) as (ls & Eb & Hlb & Hkb). exists (ls :: lls).
    cbn [mapM]. rewrite Eb. cbn [bind]. rewrite E. cbn [bind]. split; [reflexivity|]. split; [|split].
    + intros f. unfold crest_get at 1. rewrite Eb. cbn [bind]. rewrite (Hf f). reflexivity.
    + cbn [concat map list_sum fold_right]. rewrite List.app_length, Hlb, Hlen. reflexivity.
    + intros h lab r H1 H2. cbn [concat map fst snd] in H1, H2. unfold at_ in H1, H2.
      destruct (Nat.lt_ge_cases h (c_n (b_chain b))) as [Hlt|Hge].
      * rewrite nth_error_app1 in H1 by lia. rewrite nth_error_app1 in H2 by (rewrite repeat_length; lia).
        apply nth_error_In, repeat_spec in H2 as ->. apply Hkb in H1 as (x & _ & Hx).
        destruct Hb as (tpms & labels & pdf & El & _ & _ & Hlab & _). exists tpms, labels, pdf. split; [exact El|]. rewrite <- Hlab.
        eapply at_in; exact Hx.
      * rewrite nth_error_app2 in H1 by lia. rewrite nth_error_app2 in H2 by (rewrite repeat_length; lia). rewrite repeat_length in H2. rewrite Hlb in H1.
        eapply Hk; [exact H1|exact H2].
Qed.

Lemma concat_map_map : forall (f : Z -> Z) lls, concat (map (map f) lls) = map f (concat lls).
Proof. intros. rewrite concat_map. reflexivity. Qed.
