(** * Proofs about individuals grouped in households. *)

From Coq Require Import List ZArith QArith Bool Lia Arith ZifyBool ZifyNat.
From Verif Require Import Prelude PreludeFacts SpecBase SpecBaseFacts Sampling_Model
  Parse_Model Parse_Spec Parse_Proofs Parse_DurProofs Parse_TpmProofs Sparse_Model Activity_Model Activity_Spec Activity_Proofs.
Import ListNotations.

Set Implicit Arguments.

Local Open Scope nat_scope.

(** ** Counting *)

Fixpoint put_all (kvs : list (nat * nat)) (out : list nat) : result (list nat) :=
  match kvs with
  | [] => Ok out
  | (k, c) :: t => bind (set1 k c out) (put_all t)
  end.

Lemma put_all_ok : forall kvs out, NoDup (map fst kvs) -> (forall k c, In (k, c) kvs -> k < length out) ->
  exists out', put_all kvs out = Ok out' /\ length out' = length out /\
    (forall k c, In (k, c) kvs -> at_ out' k c) /\ (forall k, ~ In k (map fst kvs) -> nth_error out' k = nth_error out k).
Proof.
  induction kvs as [|[k c] kvs IH]; intros out Hn Hk; cbn [put_all].
  - exists out. repeat split; auto. intros k c [].
  - inversion Hn as [|? ? Hk1 Hn1]; subst. cbn [fst map] in *.
    assert (Hlt : k < length out) by (eapply Hk; left; eauto).
    destruct (lt_at _ _ _ Hlt) as [x Hx]. destruct (@upd_total _ k (fun _ => Ok c) out x c Hx eq_refl) as [o1 Ho1].
    unfold set1. rewrite Ho1. cbn [bind]. apply upd_ok in Ho1 as (x' & y & _ & Ey & Hy & Hl & Ho). injection Ey as <-.
    destruct (IH o1 Hn1) as (o2 & H2 & L2 & K2 & N2). { intros k' c' H. rewrite Hl. eapply Hk; right; eauto. }
    exists o2. split; [exact H2|]. split; [congruence|]. split.
    + intros k' c' [E|H]; [|auto]. injection E as -> ->. unfold at_. rewrite N2; auto.
    + intros k' H'. rewrite N2 by (intro; apply H'; right; auto). apply Ho. intro; apply H'; left; auto.
Qed.

Lemma marked_compress : forall h hh mask, marked_of h hh mask = persons_of h (compress mask hh).
Proof.
  unfold marked_of, persons_of. intros h hh mask. revert hh.
  induction mask as [|b mask IH]; intros [|x hh]; try (destruct b); simpl; auto.
  destruct (Nat.eqb h x); simpl; rewrite IH; auto.
Qed.

Lemma persons_count : forall h l, count_of Nat.compare h l = persons_of h l.
Proof.
  intros h l. unfold count_of, persons_of. f_equal. apply filter_ext. intro x. unfold is_eq.
  destruct (Nat.compare_spec h x), (Nat.eqb_spec h x); auto; lia.
Qed.

Lemma persons_zero : forall h l, ~ In h l -> persons_of h l = 0.
Proof.
  intros h l H. unfold persons_of. induction l as [|x l IH]; [reflexivity|]. simpl.
  destruct (Nat.eqb_spec h x); [subst; exfalso; apply H; left; auto|]. apply IH. intro; apply H; right; auto.
Qed.

Lemma compress_in : forall A (x : A) m l, In x (compress m l) -> In x l.
Proof. intros A x m. induction m as [|b m IH]; intros [|y l]; try destruct b; simpl; auto; try tauto. intros [E|H]; eauto. Qed.

Lemma count_in_hh_ok : forall n hh mask, length mask = length hh -> (forall h, In h hh -> h < n) ->
  exists out, count_in_hh n hh mask = Ok out /\ length out = n /\ forall h, h < n -> at_ out h (marked_of h hh mask).
Proof.
  intros n hh mask Hl Hh. unfold count_in_hh. rewrite Hl, Nat.eqb_refl. cbn [negb].
  change ((fix go (kvs : list (nat * nat)) (out : list nat) : result (list nat) :=
       match kvs with
       | [] => Ok out
       | (k, c) :: t => bind (set1 k c out) (go t)
       end)) with put_all.
  set (l := compress mask hh).
  assert (Hfst : map fst (uniq_counts Nat.compare l) = uniq Nat.compare l).
  { unfold uniq_counts. rewrite map_map. simpl. apply map_id. }
  assert (Hin : forall k c, In (k, c) (uniq_counts Nat.compare l) <-> In k l /\ c = count_of Nat.compare k l).
  { intros k c. unfold uniq_counts. rewrite in_map_iff. split.
    - intros (x & E & Hx). injection E as <- <-. rewrite (uniq_in nat_order) in Hx; auto.
    - intros [H ->]. exists k. split; auto. apply (uniq_in nat_order); auto. }
  destruct (@put_all_ok (uniq_counts Nat.compare l) (repeat 0 n)) as (out & Ho & Lo & K1 & K2).
  - rewrite Hfst. apply (uniq_nodup nat_order).
  - intros k c H. apply Hin in H as [H _]. rewrite repeat_length. apply Hh. eapply compress_in; eauto.
  - exists out. rewrite repeat_length in Lo. split; [exact Ho|]. split; [exact Lo|].
    intros h Hlt. rewrite marked_compress. fold l. destruct (in_dec Nat.eq_dec h l) as [Hi|Hi].
    + apply K1. apply Hin. split; auto. symmetry. apply persons_count.
    + unfold at_. rewrite K2. rewrite persons_zero by auto. rewrite nth_error_repeat; auto. rewrite Hfst. rewrite (uniq_in nat_order); auto.
Qed.

(** Lengths that differ. *)
Lemma count_in_hh_err : forall n hh mask, length mask <> length hh -> count_in_hh n hh mask = Err IndexError.
Proof. intros n hh mask H. unfold count_in_hh. destruct (Nat.eqb_spec (length mask) (length hh)); [contradiction|reflexivity]. Qed.

(** ** Distribution of the persons *)

Lemma persons_app : forall h l m, persons_of h (l ++ m) = persons_of h l + persons_of h m.
Proof. intros. unfold persons_of. rewrite filter_app, app_length. reflexivity. Qed.

Lemma persons_seq : forall n past h, persons_of h (seq past n) = if (past <=? h) && (h <? past + n) then 1 else 0.
Proof.
  induction n as [|n IH]; intros past h.
  - simpl. destruct (Nat.leb_spec past h), (Nat.ltb_spec h (past + 0)); simpl; auto; lia.
  - unfold persons_of in *. cbn [seq filter]. specialize (IH (S past) h).
    destruct (Nat.eqb_spec h past); cbn [length]; rewrite IH;
      destruct (Nat.leb_spec (S past) h), (Nat.ltb_spec h (S past + n)), (Nat.leb_spec past h), (Nat.ltb_spec h (past + S n)); simpl; auto; lia.
Qed.

Section Persons.
  Variables (K : Type) (keqb : K -> K -> bool).
  Hypothesis keq : forall a b, keqb a b = true <-> a = b.

  Lemma index_of_key_ok : forall l k, In k l -> exists i, index_of_key keqb k l = Ok i /\ at_ l i k.
  Proof.
    induction l as [|x l IH]; intros k H; [destruct H|]. cbn [index_of_key]. destruct (keqb k x) eqn:E.
    - apply keq in E. subst x. exists 0. split; reflexivity.
    - destruct H as [->|H]; [rewrite (proj2 (keq k k) eq_refl) in E; discriminate|].
      destruct (IH k H) as (i & -> & Hi). exists (S i). split; [reflexivity|exact Hi].
  Qed.

  Variable uniques : list K.
  Hypothesis nodup : NoDup uniques.

  (** What a pass over the persons of a group does to the lists. *)
  Definition adds (past n : nat) (persons : list K) (acc acc' : list (list nat) * list nat) : Prop :=
    length (fst acc') = length uniques /\ length (snd acc') = length uniques /\
    forall i k l c, at_ uniques i k -> at_ (fst acc) i l -> at_ (snd acc) i c ->
      exists l' c', at_ (fst acc') i l' /\ at_ (snd acc') i c' /\
        length l' = length l + n * occurrences keqb k persons /\ c' = c + n * occurrences keqb k persons /\
        (forall h, persons_of h l' = persons_of h l +
          (if (past <=? h) && (h <? past + n) then occurrences keqb k persons else 0)) /\
        (forall h, In h l' -> In h l \/ past <= h < past + n).

  Lemma add_persons_ok : forall persons past n acc, (forall p, In p persons -> In p uniques) ->
    length (fst acc) = length uniques -> length (snd acc) = length uniques ->
    exists acc', add_persons keqb uniques past n persons acc = Ok acc' /\ adds past n persons acc acc'.
  Proof.
    induction persons as [|p persons IH]; intros past n acc Hp L1 L2; cbn [add_persons].
    - exists acc. split; [reflexivity|]. split; [exact L1|]. split; [exact L2|]. intros i k l c Hk Hl Hc.
      exists l, c. unfold occurrences. cbn [filter length]. repeat split; auto; try lia.
      intro h. destruct ((past <=? h) && (h <? past + n)); lia.
    - destruct (index_of_key_ok uniques p (Hp p (or_introl eq_refl))) as (i & -> & Hi). cbn [bind].
      assert (Hlt : i < length uniques) by (eapply at_lt; eauto).
      assert (Hl1 : i < length (fst acc)) by lia. assert (Hl2 : i < length (snd acc)) by lia.
      destruct (lt_at _ _ _ Hl1) as [l0 Hl0]. destruct (lt_at _ _ _ Hl2) as [c0 Hc0].
      destruct (@upd_total _ i (fun l => Ok (l ++ seq past n)) (fst acc) l0 _ Hl0 eq_refl) as [hh Hhh].
      destruct (@upd_total _ i (fun c => Ok (c + n)) (snd acc) c0 _ Hc0 eq_refl) as [cnt Hcnt].
      rewrite Hhh. cbn [bind]. rewrite Hcnt. cbn [bind].
      apply upd_ok in Hhh as (x & y & Ex & Ey & Hy & Lh & Oh). injection Ey as <-.
      apply upd_ok in Hcnt as (x' & y' & Ex' & Ey' & Hy' & Lc & Oc). injection Ey' as <-.
      destruct (IH past n (hh, cnt)) as (acc' & Ha & H1 & H2 & H3).
      { intros; apply Hp; right; auto. } { cbn [fst]. congruence. } { cbn [snd]. congruence. }
      exists acc'. split; [exact Ha|]. split; [exact H1|]. split; [exact H2|]. cbn [fst snd] in H3.
      intros j k l c Hk Hl Hc. destruct (Nat.eq_dec j i) as [->|Hne].
      + rewrite (at_fun _ _ _ _ _ Hk Hi) in *. clear k Hk.
        unfold at_ in Hl, Hc. rewrite Hl in Ex. injection Ex as <-. rewrite Hc in Ex'. injection Ex' as <-.
        destruct (H3 _ _ _ _ Hi Hy Hy') as (l' & c' & A1 & A2 & A3 & A4 & A5 & A6). exists l', c'.
        assert (Eo : occurrences keqb p (p :: persons) = S (occurrences keqb p persons)).
        { unfold occurrences. cbn [filter]. rewrite (proj2 (keq p p) eq_refl). reflexivity. }
        rewrite Eo. rewrite app_length, seq_length in A3.
        split; [exact A1|]. split; [exact A2|]. split; [lia|]. split; [lia|]. split.
        * intro h. rewrite A5, persons_app, persons_seq. destruct ((past <=? h) && (h <? past + n)); lia.
        * intros h Hh. apply A6 in Hh as [Hh|Hh]; [|auto]. apply in_app_iff in Hh as [Hh|Hh]; [auto|]. apply in_seq in Hh. auto.
      + assert (Hl' : at_ hh j l) by (unfold at_; rewrite Oh by auto; exact Hl).
        assert (Hc' : at_ cnt j c) by (unfold at_; rewrite Oc by auto; exact Hc).
        destruct (H3 _ _ _ _ Hk Hl' Hc') as (l' & c' & A1 & A2 & A3 & A4 & A5 & A6). exists l', c'.
        assert (Eo : occurrences keqb k (p :: persons) = occurrences keqb k persons).
        { unfold occurrences. cbn [filter]. destruct (keqb k p) eqn:E; [|reflexivity]. apply keq in E. subst p. exfalso. apply Hne.
          eapply NoDup_nth_error; eauto. - eapply at_lt; eauto. - unfold at_ in *. congruence. }
        rewrite Eo. auto 10.
  Qed.

  Lemma in_group_0 : forall n ns h, in_group (n :: ns) 0 h <-> h < n.
  Proof.
    intros n ns h. unfold in_group, at_. cbn [nth_error firstn total_nat fold_right]. split.
    - intros (m & E & H). injection E as <-. unfold total_nat in H. simpl in H. lia.
    - intros H. exists n. split; auto. unfold total_nat. simpl. lia.
  Qed.

  Lemma in_group_S : forall n ns g h, in_group (n :: ns) (S g) h <-> (n <= h /\ in_group ns g (h - n)).
  Proof.
    intros n ns g h. unfold in_group, at_. cbn [nth_error firstn]. unfold total_nat. cbn [fold_right]. split.
    - intros (m & E & H). split; [lia|]. exists m. split; [auto|lia].
    - intros (Hn & m & E & H). exists m. split; [auto|lia].
  Qed.

  (** The whole pass: [result i k] for each kind of person. *)
  Definition distributed (past : nat) (groups : list (list K * nat)) (acc acc' : list (list nat) * list nat) : Prop :=
    length (fst acc') = length uniques /\ length (snd acc') = length uniques /\
    forall i k l c, at_ uniques i k -> at_ (fst acc) i l -> at_ (snd acc) i c ->
      exists l' c', at_ (fst acc') i l' /\ at_ (snd acc') i c' /\
        (c = length l -> c' = length l') /\
        (forall h, (h < past \/ past + total_nat (map snd groups) <= h) -> persons_of h l' = persons_of h l) /\
        (forall g ps h, at_ (map fst groups) g ps -> in_group (map snd groups) g h ->
          persons_of (past + h) l' = persons_of (past + h) l + occurrences keqb k ps) /\
        (forall h, In h l' -> In h l \/ past <= h < past + total_nat (map snd groups)).

  Lemma add_subgroups_ok : forall groups past acc, (forall ps n p, In (ps, n) groups -> In p ps -> In p uniques) ->
    length (fst acc) = length uniques -> length (snd acc) = length uniques ->
    exists acc', add_subgroups keqb uniques past groups acc = Ok acc' /\ distributed past groups acc acc'.
  Proof.
    induction groups as [|[ps n] groups IH]; intros past acc Hp L1 L2; cbn [add_subgroups].
    - exists acc. split; [reflexivity|]. split; [exact L1|]. split; [exact L2|]. intros i k l c Hk Hl Hc.
      exists l, c. split; [auto|]. split; [auto|]. split; [auto|]. split; [auto|]. split; [|auto].
      intros g ps h H. unfold at_ in H. destruct g; discriminate.
    - destruct (@add_persons_ok ps past n acc) as (a1 & -> & A1 & A2 & A3); auto.
      { intros p H. eapply Hp; [left; reflexivity|auto]. }
      cbn [bind]. destruct (IH (past + n) a1) as (a2 & Ha2 & B1 & B2 & B3); auto.
      { intros ps' n' p H1 H2. eapply Hp; [right|]; eauto. }
      exists a2. split; [exact Ha2|]. split; [exact B1|]. split; [exact B2|]. intros i k l c Hk Hl Hc.
      destruct (A3 _ _ _ _ Hk Hl Hc) as (l1 & c1 & C1 & C2 & C3 & C4 & C5 & C6).
      destruct (B3 _ _ _ _ Hk C1 C2) as (l2 & c2 & D1 & D2 & D3 & D4 & D5 & D6).
      exists l2, c2. split; [exact D1|]. split; [exact D2|]. split; [intro; apply D3; lia|].
      cbn [map fst snd]. unfold total_nat in *. cbn [fold_right].
      split; [|split].
      + intros h Hh. rewrite D4 by lia. rewrite C5. destruct (Nat.leb_spec past h), (Nat.ltb_spec h (past + n)); simpl; lia.
      + intros g ps' h Hg Hh. destruct g as [|g].
        * apply in_group_0 in Hh. injection Hg as <-. rewrite D4 by lia. rewrite C5.
          destruct (Nat.leb_spec past (past + h)), (Nat.ltb_spec (past + h) (past + n)); simpl; lia.
        * apply in_group_S in Hh as [Hn Hh]. specialize (D5 g ps' (h - n) Hg Hh). replace (past + n + (h - n)) with (past + h) in D5 by lia.
          rewrite D5, C5. destruct (Nat.leb_spec past (past + h)), (Nat.ltb_spec (past + h) (past + n)); simpl; lia.
      + intros h Hh. apply D6 in Hh as [Hh|Hh]; [|right; lia]. apply C6 in Hh as [Hh|Hh]; [auto|right; lia].
  Qed.

  Lemma map_fst_combine : forall A B (a : list A) (b : list B), length a = length b -> map fst (combine a b) = a.
  Proof. induction a as [|x a IH]; intros [|y b] H; simpl in *; try discriminate; auto. rewrite IH; auto. Qed.
  Lemma map_snd_combine : forall A B (a : list A) (b : list B), length a = length b -> map snd (combine a b) = b.
  Proof. induction a as [|x a IH]; intros [|y b] H; simpl in *; try discriminate; auto. rewrite IH; auto. Qed.

  Lemma parse_subgroups_ok : forall persons sizes, length persons = length sizes ->
    (forall g ps p, at_ persons g ps -> In p ps -> In p uniques) ->
    exists hh cnt, parse_subgroups keqb uniques persons sizes = Ok (hh, cnt) /\
      length hh = length uniques /\ length cnt = length uniques /\
      forall i k, at_ uniques i k -> exists l, at_ hh i l /\ at_ cnt i (length l) /\
        (forall g ps h, at_ persons g ps -> in_group sizes g h -> persons_of h l = occurrences keqb k ps) /\
        (forall h, In h l -> h < total_nat sizes).
  Proof.
    intros persons sizes Hl Hp. unfold parse_subgroups.
    destruct (@add_subgroups_ok (combine persons sizes) 0 (map (fun _ : K => []) uniques, map (fun _ : K => 0) uniques)) as ([hh cnt] & Ha & H1 & H2 & H3).
    - intros ps n p H1 H2. apply in_combine_l in H1. apply in_at in H1 as [g Hg]. eapply Hp; eauto.
    - cbn [fst]. apply map_length.
    - cbn [snd]. apply map_length.
    - exists hh, cnt. split; [exact Ha|]. cbn [fst snd] in *. split; [exact H1|]. split; [exact H2|].
      rewrite (map_fst_combine _ _ Hl), (map_snd_combine _ _ Hl) in H3.
      intros i k Hk. destruct (H3 i k [] 0 Hk) as (l & c & A1 & A2 & A3 & A4 & A5 & A6).
      { unfold at_ in *. rewrite nth_error_map, Hk. reflexivity. }
      { unfold at_ in *. rewrite nth_error_map, Hk. reflexivity. }
      exists l. split; [exact A1|]. split; [rewrite <- A3; auto|]. split.
      + intros g ps h Hg Hh. specialize (A5 g ps h Hg Hh). cbn [Nat.add] in A5. rewrite A5. reflexivity.
      + intros h Hh. apply A6 in Hh as [[]|Hh]. lia.
  Qed.
End Persons.

(** ** Occupancy from the individuals *)

Lemma marked_le : forall h hh mask, marked_of h hh mask <= persons_of h hh.
Proof.
  intros h hh mask. rewrite marked_compress. unfold persons_of. revert hh.
  induction mask as [|b mask IH]; intros [|x hh]; try destruct b; simpl; try lia; specialize (IH hh); destruct (Nat.eqb h x); simpl; lia.
Qed.

Lemma marked_disjoint : forall h hh m1 m2, (forall i, at_ m1 i true -> at_ m2 i true -> False) ->
  marked_of h hh m1 + marked_of h hh m2 <= persons_of h hh.
Proof.
  intros h hh m1 m2. rewrite !marked_compress. unfold persons_of. revert m1 m2.
  induction hh as [|x hh IH]; intros [|b1 m1] [|b2 m2] H; try (destruct b1); try (destruct b2); cbn [compress filter length];
    try (exfalso; apply (H 0); reflexivity);
    try (assert (H' : forall i, at_ m1 i true -> at_ m2 i true -> False) by (intros i; apply (H (S i))); specialize (IH m1 m2 H'));
    try (specialize (IH m1 [] ltac:(intros [|i] ? E; discriminate E)));
    try (specialize (IH [] m2 ltac:(intros [|i] E ?; discriminate E)));
    cbn [compress filter length] in *;
    repeat (match goal with |- context [compress ?m []] => destruct m | _ => idtac end); cbn [compress filter length];
    try destruct (Nat.eqb h x); cbn [length]; try lia.
Qed.

Local Open Scope Z_scope.

Lemma ind_active_ok : forall residents hh m_away m_sleep away sleeping,
  length m_away = length hh -> length m_sleep = length hh -> (forall h, In h hh -> (h < length residents)%nat) ->
  (forall h r, at_ residents h r -> r = Z.of_nat (persons_of h hh)) ->
  (forall i, at_ m_away i true -> at_ m_sleep i true -> False) ->
  count_in_hh (length residents) hh m_away = Ok away -> count_in_hh (length residents) hh m_sleep = Ok sleeping ->
  length (ind_occupancy residents away) = length residents /\ length (ind_active residents away sleeping) = length residents /\
  forall h r, at_ residents h r -> exists o a, at_ (ind_occupancy residents away) h o /\ at_ (ind_active residents away sleeping) h a /\
    0 <= a <= o /\ o <= r /\
    o = r - Z.of_nat (marked_of h hh m_away) /\ a = o - Z.of_nat (marked_of h hh m_sleep).
Proof.
  intros residents hh ma ms away sleeping La Ls Hh Hr Hd Ha Hs.
  destruct (@count_in_hh_ok (length residents) hh ma La Hh) as (x & Hx & Lx & Kx). rewrite Hx in Ha. injection Ha as <-.
  destruct (@count_in_hh_ok (length residents) hh ms Ls Hh) as (y & Hy & Ly & Ky). rewrite Hy in Hs. injection Hs as <-.
  unfold ind_active, ind_occupancy. rewrite !map2_length. split; [lia|]. split; [lia|].
  intros h r Hat. pose proof (at_lt _ _ _ _ Hat) as Hlt. do 2 eexists.
  unfold at_ in *. rewrite !map2_nth, Hat, (Kx h Hlt), (Ky h Hlt).
  split; [reflexivity|]. split; [reflexivity|]. rewrite (Hr h r Hat).
  pose proof (@marked_disjoint h hh ma ms Hd). lia.
Qed.

(** ** New tables *)

From Verif Require Import Activity_LabelProofs.

Local Open Scope nat_scope.

Lemma chain_step_nstates : forall L (c : chain L) n u c1,
  chain_step (mkChain (c_n c) n (c_labels c) (c_states c) (c_iter c) (c_ticks c)) u = Ok c1 ->
  exists c2, chain_step c u = Ok c2 /\ c_states c2 = c_states c1 /\ c_labels c2 = c_labels c1 /\ c_ticks c2 = c_ticks c1.
Proof.
  intros L c n u c1 H. unfold chain_step in *. cbn [c_n c_nstates c_labels c_states c_iter c_ticks] in H.
  destruct (cyc_next (c_iter c)) as [r|]; [|discriminate]. cbn [bind] in *.
  destruct (mapM (get_at (fst r)) (c_states c)) as [rows|]; [|discriminate]. cbn [bind] in *.
  destruct (mc_rows rows u) as [st|]; [|discriminate]. cbn [bind] in *. injection H as <-.
  eexists. split; [reflexivity|]. repeat split.
Qed.

Lemma set_tpm_ok : forall L cmp, total_order cmp -> forall (c : chain L) tpms check new n u,
  (forall i s, at_ (c_states c) i s -> s < length (c_labels c)) ->
  tpms <> [] -> (forall t m, at_ tpms t m -> stochastic n m) -> length new = n -> 0 < n -> unit_draws u ->
  exists c', set_tpm cmp c tpms check (Some new) = Ok c' /\ c_labels c' = new /\
    length (c_states c') = length (c_states c) /\ c_ticks c' = c_ticks c /\
    (forall i s lab, at_ (c_states c) i s -> at_ (c_labels c) s lab ->
      (forall p, sole_position new lab p -> at_ (c_states c') i p) /\
      ((forall p, ~ sole_position new lab p) -> at_ (c_states c') i 0)) /\
    exists c'', chain_step c' u = Ok c'' /\ length (c_states c'') = length (c_states c) /\
      forall i s, at_ (c_states c') i s -> exists row s',
        row_at tpms (1 mod length tpms) s row /\ at_ (c_states c'') i s' /\ selects row (u i) s'.
Proof.
  intros L cmp ord c tpms check new n u Hs Hne Hst Hl Hn Hu. unfold set_tpm.
  destruct (@tpm_iter_ok tpms n check Hne Hst) as (it & -> & Hit). cbn [bind].
  set (c1 := mkChain (c_n c) (c_nstates c) (c_labels c) (c_states c) it (c_ticks c)).
  destruct (@assign_new_labels_ok L cmp ord c1 new Hs) as (c' & E & H1 & H2 & H3 & H4 & H5 & H6).
  exists c'. split; [exact E|]. split; [exact H1|]. split; [exact H2|]. split; [exact H4|]. split; [exact H6|].
  assert (Hb : forall i s, at_ (c_states c') i s -> s < n).
  { intros i s Hi. pose proof (at_lt _ _ _ _ Hi) as Hlt. rewrite H2 in Hlt. destruct (lt_at _ _ _ Hlt) as [s0 Hs0].
    assert (Hs0' : s0 < length (c_labels c1)) by (eapply Hs; exact Hs0). destruct (lt_at _ _ _ Hs0') as [lab Hlab].
    destruct (H6 i s0 lab Hs0 Hlab) as [Ha Hb].
    assert (Hdec : (exists p, sole_position new lab p) \/ forall p, ~ sole_position new lab p).
    { destruct (position_in cmp new lab) as [|q|q] eqn:Ep.
      - left. unfold position_in in Ep. destruct (where_true _) as [|k [|]] eqn:Ew; try discriminate. exists k.
        eapply where_single_sole; eauto.
      - left. unfold position_in in Ep. destruct (where_true _) as [|k [|]] eqn:Ew; try discriminate. exists k.
        eapply where_single_sole; eauto.
      - right. intros p Hp. rewrite (position_found ord Hp) in Ep. lia. }
    destruct Hdec as [[p Hp]|Hno].
    - specialize (Ha p Hp). rewrite (at_fun _ _ _ _ _ Hi Ha). destruct Hp as [Hp _]. apply at_lt in Hp. lia.
    - specialize (Hb Hno). rewrite (at_fun _ _ _ _ _ Hi Hb). exact Hn. }
  destruct (@chain_step_ok L tpms n 1 (mkChain (c_n c') n (c_labels c') (c_states c') (c_iter c') (c_ticks c')) u Hne Hst Hu)
    as (c2 & Hc2 & _ & Hl2 & _ & _ & _ & Hk).
  { split; [reflexivity|]. split; [cbn [c_iter]; rewrite H3; exact Hit|]. exact Hb. }
  destruct (@chain_step_nstates L c' n u c2 Hc2) as (c3 & Hc3 & Hst3 & _ & _).
  exists c3. split; [exact Hc3|]. rewrite Hst3. cbn [c_states] in Hl2. split; [rewrite Hl2; exact H2|]. exact Hk.
Qed.

(** Without new labels the states stay as they are. *)
Lemma set_tpm_same : forall L cmp (c : chain L) tpms check n,
  tpms <> [] -> (forall t m, at_ tpms t m -> stochastic n m) ->
  exists c', set_tpm cmp c tpms check None = Ok c' /\ c_labels c' = c_labels c /\ c_states c' = c_states c /\
    c_ticks c' = c_ticks c.
Proof.
  intros L cmp c tpms check n Hne Hst. unfold set_tpm. destruct (@tpm_iter_ok tpms n check Hne Hst) as (it & -> & _). cbn [bind].
  eexists. split; [reflexivity|]. repeat split.
Qed.

(** ** Who does an activity *)

Section Doing.
  Variables (L : Type) (cmp : L -> L -> comparison).
  Hypothesis ord : total_order cmp.

  Definition current (c : chain L) : list (option L) := map (nth_error (c_labels c)) (c_states c).
  Definition does (a : L) (o : option L) : bool := match o with Some x => is_eq cmp a x | None => false end.

  Lemma chain_doing_ok : forall (c : chain L) a p, sole_position (c_labels c) a p ->
    chain_doing_activity cmp c a = Ok (map (does a) (current c)).
  Proof.
    intros c a p [Hp Hu]. unfold chain_doing_activity. rewrite (@where_true_single _ (is_eq cmp a) (c_labels c) p a); auto.
    - unfold chain_doing_state, current. rewrite map_map. f_equal. apply map_ext. intro s. unfold does.
      destruct (nth_error (c_labels c) s) as [x|] eqn:E.
      + destruct (is_eq cmp a x) eqn:Ex.
        * apply (is_eq_iff ord) in Ex. subst x. apply Nat.eqb_eq. apply Hu. exact E.
        * apply Nat.eqb_neq. intros ->. unfold at_ in Hp. rewrite Hp in E. injection E as <-.
          rewrite (proj2 (is_eq_iff ord a a) eq_refl) in Ex. discriminate.
      + apply Nat.eqb_neq. intros ->. unfold at_ in Hp. congruence.
    - apply (is_eq_iff ord). reflexivity.
    - intros q y Hq Hy. apply (is_eq_iff ord) in Hy. subst y. auto.
  Qed.

  Lemma chain_doing_err : forall (c : chain L) a, ~ In a (c_labels c) -> chain_doing_activity cmp c a = Err ValueError.
  Proof.
    intros c a H. unfold chain_doing_activity. destruct (where_true (map (is_eq cmp a) (c_labels c))) as [|p t] eqn:E; [reflexivity|].
    exfalso. assert (Hp : In p (where_true (map (is_eq cmp a) (c_labels c)))) by (rewrite E; left; auto).
    rewrite where_true_in', nth_error_map in Hp. destruct (nth_error (c_labels c) p) as [y|] eqn:Ey; [|discriminate].
    simpl in Hp. injection Hp as Hp. apply (is_eq_iff ord) in Hp. subst y. apply H. eapply nth_error_In; eauto.
  Qed.

  Lemma mapM_map_ok : forall A B (f : A -> result B) (g : A -> B) l, (forall x, In x l -> f x = Ok (g x)) -> mapM f l = Ok (map g l).
  Proof.
    intros A B f g l. induction l as [|x l IH]; intros H; [reflexivity|]. simpl. rewrite H by (left; auto). simpl.
    rewrite IH by (intros; apply H; right; auto). reflexivity.
  Qed.

  Lemma individuals_ok : forall n hh (subs : list (chain L)) a,
    (forall c, In c subs -> exists p, sole_position (c_labels c) a p) ->
    length (concat (map current subs)) = length hh -> (forall h, In h hh -> h < n) ->
    exists out, individuals_doing cmp n hh subs a = Ok out /\ length out = n /\
      forall h, h < n -> at_ out h (length (filter (fun p => does a (fst p) && Nat.eqb h (snd p)) (combine (concat (map current subs)) hh))).
  Proof.
    intros n hh subs a Ha Hl Hh. unfold individuals_doing.
    rewrite (@mapM_map_ok _ _ _ (fun c => map (does a) (current c))).
    2:{ intros c Hc. destruct (Ha c Hc) as [p Hp]. eapply chain_doing_ok; exact Hp. }
    cbn [bind]. rewrite <- (map_map current (map (does a))), <- concat_map.
    destruct (@count_in_hh_ok n hh (map (does a) (concat (map current subs)))) as (out & Ho & Lo & Ko); auto.
    { rewrite map_length. exact Hl. }
    exists out. split; [exact Ho|]. split; [exact Lo|]. intros h Hlt. specialize (Ko h Hlt).
    replace (length (filter _ (combine (concat (map current subs)) hh))) with (marked_of h hh (map (does a) (concat (map current subs)))); [exact Ko|].
    unfold marked_of. generalize (concat (map current subs)). intros l. clear. revert hh.
    induction l as [|x l IH]; intros [|y hh]; simpl; auto. destruct (does a x && Nat.eqb h y); simpl; auto.
  Qed.
End Doing.

(** ** Residents *)

Lemma expand_residents_ok : forall residents sizes, length residents = length sizes ->
  length (expand_residents residents sizes) = total_nat sizes /\
  forall g r h, at_ residents g r -> in_group sizes g h -> at_ (expand_residents residents sizes) h r.
Proof.
  intros residents sizes H. unfold expand_residents. revert sizes H.
  induction residents as [|r rs IH]; intros [|n ns] H; try discriminate.
  - split; [reflexivity|]. intros [|g] r h E; discriminate.
  - destruct (IH ns) as [L1 K1]; [simpl in H; lia|]. cbn [map2 concat]. split.
    + rewrite app_length, repeat_length, L1. reflexivity.
    + intros [|g] r' h E Hg.
      * injection E as <-. apply in_group_0 in Hg. unfold at_. rewrite nth_error_app1 by (rewrite repeat_length; lia).
        apply nth_error_repeat. exact Hg.
      * apply in_group_S in Hg as [Hn Hg]. unfold at_. rewrite nth_error_app2 by (rewrite repeat_length; lia).
        rewrite repeat_length. eapply K1; eauto.
Qed.
