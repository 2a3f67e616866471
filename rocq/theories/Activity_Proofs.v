(** * Proofs about the activity simulators: Markov and semi-Markov chains. *)

From Coq Require Import List ZArith QArith Bool Lia Lqa Arith.
From Verif Require Import Prelude PreludeFacts SpecBase SpecBaseFacts Sampling_Model Sampling_Spec Sampling_Proofs
  Parse_Model Parse_Proofs Activity_Model Activity_Spec.
Import ListNotations.

Set Implicit Arguments.

(** ** Sampling rows *)

Lemma selects_possible : forall p r i, nonneg p -> selects p r i -> possible p i.
Proof.
  intros p r i Hp (Hi & H1 & H2). destruct (lt_at _ p i Hi) as [x Hx]. exists x. split; [exact Hx|].
  unfold mass_before in *. rewrite !total_qsum in *. rewrite (qsum_firstn_S p i) in H2 by exact Hx. lra.
Qed.

Lemma is_pdf_nonempty : forall p, is_pdf p -> p <> [].
Proof. intros p [_ H] ->. unfold total in H; simpl in H. lra. Qed.

Lemma mass_all : forall p, mass_before p (length p) = total p.
Proof. intros p. unfold mass_before. rewrite firstn_all. reflexivity. Qed.

Lemma mc_one_pdf : forall p r, is_pdf p -> 0 <= r -> r < 1 -> exists i, mc_one (cumsum p) r = Ok i /\ selects p r i.
Proof.
  intros p r Hp Hr0 Hr1.
  assert (Hne : cumsum p <> []).
  { intro H. apply (is_pdf_nonempty Hp). apply length_zero_iff_nil. rewrite <- (cumsum_length p), H. reflexivity. }
  destruct (mc_one_total _ r Hne) as [i Hi]. exists i. split; [exact Hi|].
  apply mc_one_spec in Hi as [Hlt [Hd|[-> He]]].
  - apply designates_pdf; auto. apply Hp.
  - exfalso. rewrite cumsum_length in Hlt.
    destruct (cumsum_nth p (length p - 1) ltac:(lia)) as (c & Hc & Hq).
    apply He in Hc. rewrite Hq in Hc. replace (S (length p - 1)) with (length p) in Hc by lia.
    rewrite firstn_all in Hc. rewrite <- total_qsum in Hc. destruct Hp as [_ Hp]. lra.
Qed.

Lemma seq_at : forall n s k, (k < n)%nat -> nth_error (seq s n) k = Some (s + k)%nat.
Proof.
  induction n as [|n IH]; intros s [|k] H; simpl; try lia.
  - f_equal; lia.
  - rewrite IH by lia. f_equal; lia.
Qed.

Lemma combine_at : forall A B (l : list A) (m : list B) k x y,
  nth_error l k = Some x -> nth_error m k = Some y -> nth_error (combine l m) k = Some (x, y).
Proof. induction l as [|a l IH]; intros [|b m] [|k] x y H1 H2; simpl in *; try discriminate; auto. congruence. Qed.

Lemma mc_rows_pdf : forall prows u, (forall k p, at_ prows k p -> is_pdf p) -> unit_draws u ->
  exists out, mc_rows (map cumsum prows) u = Ok out /\ length out = length prows /\
  forall k p, at_ prows k p -> exists i, at_ out k i /\ selects p (u k) i.
Proof.
  intros prows u Hp Hu. unfold mc_rows, mc_from_cdf. rewrite map_length.
  destruct (mapM_total _ _ (fun rd => mc_one (fst rd) (snd rd)) (combine (map cumsum prows) (map u (seq 0 (length prows)))))
    as [out Hout].
  { intros [row r] Hin. cbn [fst snd]. pose proof (in_combine_l _ _ _ _ Hin) as H1. pose proof (in_combine_r _ _ _ _ Hin) as H2.
    apply in_map_iff in H1 as (p & <- & H1). apply in_map_iff in H2 as (k & <- & _).
    apply in_at in H1 as [j Hj]. destruct (mc_one_pdf (Hp _ _ Hj) (proj1 (Hu k)) (proj2 (Hu k))) as (i & Hi & _). eauto. }
  exists out. split; [exact Hout|]. apply mapM_ok in Hout as [Hl Hk].
  rewrite combine_length, !map_length, seq_length, Nat.min_id in Hl. split; [exact Hl|].
  intros k p Hkp. pose proof (at_lt _ _ _ _ Hkp) as Hlt.
  destruct (Hk k (cumsum p, u k)) as (i & Hi & Hmc).
  { apply combine_at.
    - rewrite nth_error_map, Hkp. reflexivity.
    - rewrite nth_error_map, seq_at by exact Hlt. reflexivity. }
  exists i. split; [exact Hi|]. cbn [fst snd] in Hmc.
  destruct (mc_one_pdf (Hp _ _ Hkp) (proj1 (Hu k)) (proj2 (Hu k))) as (i' & Hi' & Hs). congruence.
Qed.

Lemma get_at_ok : forall A (l : list A) i x, get_at l i = Ok x <-> at_ l i x.
Proof. intros. unfold get_at, at_. destruct (nth_error l i); split; congruence. Qed.

Lemma mapM_get : forall A (l : list A) is, (forall i, In i is -> (i < length l)%nat) ->
  exists out, mapM (get_at l) is = Ok out /\ length out = length is /\
  forall k i, at_ is k i -> exists x, at_ out k x /\ at_ l i x.
Proof.
  intros A l is H. destruct (mapM_total _ _ (get_at l) is) as [out Hout].
  { intros i Hi. destruct (lt_at _ l i (H i Hi)) as [x Hx]. exists x. apply get_at_ok. exact Hx. }
  exists out. split; [exact Hout|]. apply mapM_ok in Hout as [Hl Hk]. split; [exact Hl|].
  intros k i Hki. destruct (Hk k i Hki) as (x & Hx & Hg). exists x. split; [exact Hx|]. apply get_at_ok. exact Hg.
Qed.

Lemma mapM_get_map : forall A B (f : A -> B) (l : list A) is out,
  mapM (get_at l) is = Ok out -> mapM (get_at (map f l)) is = Ok (map f out).
Proof.
  induction is as [|i is IH]; intros out H; simpl in *.
  - injection H as <-. reflexivity.
  - unfold get_at in *. rewrite nth_error_map. destruct (nth_error l i) as [x|]; [|discriminate]. simpl in *.
    destruct (mapM _ is) as [o|] eqn:E; [|discriminate]. simpl in H. injection H as <-. rewrite (IH o eq_refl). reflexivity.
Qed.

(** ** Cycles *)

Definition cyc_ok {A} (items : list A) (k : nat) (c : cyc A) : Prop :=
  cyc_items c = items /\ cyc_pos c = (k mod length items)%nat.

Lemma cyc_next_ok : forall A (items : list A) k c, items <> [] -> cyc_ok items k c ->
  exists x c', cyc_next c = Ok (x, c') /\ at_ items (k mod length items) x /\ cyc_ok items (S k) c'.
Proof.
  intros A items k [its pos] Hne [H1 H2]; simpl in *. subst its pos.
  assert (Hn : length items <> 0%nat) by (rewrite length_zero_iff_nil; exact Hne).
  pose proof (Nat.mod_upper_bound k (length items) Hn) as Hk.
  destruct (lt_at _ items _ Hk) as [x Hx]. unfold cyc_next; cbn [cyc_items cyc_pos]. unfold at_ in Hx. rewrite Hx.
  do 2 eexists. split; [reflexivity|]. split; [exact Hx|]. split; [reflexivity|].
  cbn [cyc_pos cyc_items]. destruct (S (k mod length items) =? length items)%nat eqn:E.
  - apply Nat.eqb_eq in E. replace (S k) with (1 + k)%nat by lia. rewrite <- Nat.add_mod_idemp_r by exact Hn.
    replace (1 + k mod length items)%nat with (length items) by lia. rewrite Nat.mod_same by exact Hn. reflexivity.
  - apply Nat.eqb_neq in E. replace (S k) with (1 + k)%nat by lia. rewrite <- Nat.add_mod_idemp_r by exact Hn.
    symmetry. apply Nat.mod_small. lia.
Qed.

Lemma cyc_new_ok : forall A (items : list A), cyc_ok items 0 (cyc_new items).
Proof.
  intros. split; [reflexivity|]. cbn [cyc_new cyc_pos]. destruct (length items) as [|n] eqn:E; [reflexivity|].
  rewrite Nat.mod_0_l by discriminate. reflexivity.
Qed.

Lemma cyc_next_err : forall A, cyc_next (@cyc_new A []) = Err StopIteration.
Proof. reflexivity. Qed.

(** ** First-order chains *)

Section ChainProofs.
  Variable L : Type.
  Implicit Types c : chain L.

  (** The invariant of a chain over stochastic tables that has consumed [k] tables. *)
  Definition chain_ok (tpms : list (list (list Q))) (n k : nat) c : Prop :=
    c_nstates c = n /\ cyc_ok (map (map cumsum) tpms) k (c_iter c) /\
    forall i s, at_ (c_states c) i s -> (s < n)%nat.

  Lemma map_ne : forall A B (f : A -> B) l, l <> [] -> map f l <> [].
  Proof. intros A B f [|x l] H; [congruence|discriminate]. Qed.

  Lemma chain_step_ok : forall tpms n k c u, tpms <> [] -> (forall t m, at_ tpms t m -> stochastic n m) ->
    unit_draws u -> chain_ok tpms n k c ->
    exists c', chain_step c u = Ok c' /\ chain_ok tpms n (S k) c' /\
      length (c_states c') = length (c_states c) /\ c_ticks c' = (c_ticks c + 1)%Z /\
      c_n c' = c_n c /\ c_labels c' = c_labels c /\
      forall i s, at_ (c_states c) i s -> exists row s',
        row_at tpms (k mod length tpms) s row /\ at_ (c_states c') i s' /\ selects row (u i) s'.
  Proof.
    intros tpms n k c u Hne Hst Hu (Hn & Hit & Hs).
    destruct (cyc_next_ok (map_ne _ Hne) Hit) as (x & it' & Hnext & Hx & Hit').
    rewrite map_length in Hx. unfold at_ in Hx. rewrite nth_error_map in Hx.
    destruct (nth_error tpms (k mod length tpms)) as [m|] eqn:Em; [|discriminate]. injection Hx as <-.
    destruct (Hst _ _ Em) as [Hlen Hrows].
    destruct (mapM_get m (c_states c)) as (prows & Hp & Hpl & Hpk).
    { intros s Hin. apply in_at in Hin as [i Hi]. rewrite Hlen. eapply Hs; eauto. }
    assert (Hpdf : forall j p, at_ prows j p -> length p = n /\ is_pdf p).
    { intros j p Hj. pose proof (at_lt _ _ _ _ Hj) as Hlt. rewrite Hpl in Hlt. destruct (lt_at _ _ _ Hlt) as [s Hsj].
      destruct (Hpk _ _ Hsj) as (p' & Hp' & Hm). rewrite (at_fun _ _ _ _ _ Hj Hp'). eapply Hrows; eauto. }
    destruct (@mc_rows_pdf prows u (fun j p H => proj2 (Hpdf j p H)) Hu) as (out & Hout & Hol & Hok).
    unfold chain_step. rewrite Hnext. cbn [bind fst snd]. rewrite (mapM_get_map cumsum _ _ Hp). cbn [bind]. rewrite Hout.
    cbn [bind]. eexists. split; [reflexivity|]. cbn [c_states c_ticks c_n c_labels].
    split; [|split; [lia|repeat (split; [reflexivity|])]].
    - split; [exact Hn|]. split; [exact Hit'|]. cbn [c_states]. intros i s Hi. pose proof (at_lt _ _ _ _ Hi) as Hlt. rewrite Hol in Hlt.
      destruct (lt_at _ _ _ Hlt) as [p Hpi]. destruct (Hok _ _ Hpi) as (s' & Hs' & Hsel).
      rewrite (at_fun _ _ _ _ _ Hi Hs'). destruct Hsel as [Hsel _]. rewrite (proj1 (Hpdf _ _ Hpi)) in Hsel. exact Hsel.
    - intros i s Hi. destruct (Hpk _ _ Hi) as (p & Hpi & Hm). destruct (Hok _ _ Hpi) as (s' & Hs' & Hsel).
      exists p, s'. split; [exists m; split; [exact Em|exact Hm]|]. split; [exact Hs'|exact Hsel].
  Qed.

  Lemma chain_run_app : forall h1 h2 c, chain_run (h1 ++ h2) c = bind (chain_run h1 c) (chain_run h2).
  Proof. induction h1 as [|u h1 IH]; intros h2 c; simpl; [reflexivity|]. destruct (chain_step c u); simpl; auto. Qed.

  Lemma chain_run_ok : forall tpms n hist k c, tpms <> [] -> (forall t m, at_ tpms t m -> stochastic n m) ->
    (forall j u, at_ hist j u -> unit_draws u) -> chain_ok tpms n k c ->
    exists c', chain_run hist c = Ok c' /\ chain_ok tpms n (k + length hist) c' /\
      length (c_states c') = length (c_states c) /\ c_ticks c' = (c_ticks c + Z.of_nat (length hist))%Z.
  Proof.
    induction hist as [|u hist IH]; intros k c Hne Hst Hu Hc; simpl.
    - exists c. rewrite Nat.add_0_r, Z.add_0_r. auto.
    - destruct (@chain_step_ok tpms n k c u Hne Hst (Hu O u eq_refl) Hc) as (c1 & H1 & Hc1 & Hl & Ht & _).
      rewrite H1. cbn [bind]. destruct (IH (S k) c1 Hne Hst (fun j v H => Hu (S j) v H) Hc1) as (c' & H' & Hc' & Hl' & Ht').
      exists c'. split; [exact H'|]. rewrite Nat.add_succ_r. split; [exact Hc'|]. split; [congruence|]. rewrite Ht', Ht. lia.
  Qed.

  Lemma firstn_S_at : forall A (l : list A) k x, at_ l k x -> firstn (S k) l = firstn k l ++ [x].
  Proof.
    induction l as [|y l IH]; intros [|k] x H; unfold at_ in *; simpl in *; try discriminate.
    - injection H as ->. reflexivity.
    - f_equal. apply (IH k x H).
  Qed.

  Lemma at_firstn : forall A (l : list A) n k x, at_ (firstn n l) k x -> at_ l k x.
  Proof. induction l as [|y l IH]; intros [|n] [|k] x H; unfold at_ in *; simpl in *; try discriminate; auto. eapply IH; eauto. Qed.

  Lemma repeat_at : forall A (x : A) n k y, at_ (repeat x n) k y -> y = x.
  Proof. intros A x n k y H. apply at_in in H. apply repeat_spec in H. exact H. Qed.

  Lemma check_cdfs_pdf : forall check prows, (forall k p, at_ prows k p -> is_pdf p) ->
    check_cdfs check (map cumsum prows) = Ok true.
  Proof.
    intros check prows Hp. destruct check; [|reflexivity]. cbn [check_cdfs]. apply check_valid_cdf_iff.
    intros k row Hk. unfold at_ in Hk. rewrite nth_error_map in Hk. destruct (nth_error prows k) as [p|] eqn:E; [|discriminate].
    injection Hk as <-. apply Hp in E as Hpdf. destruct Hpdf as [Hnn Hsum].
    assert (Hne : p <> []) by (apply is_pdf_nonempty; split; auto).
    assert (Hlen : (0 < length p)%nat) by (destruct p; [congruence|simpl; lia]).
    assert (Hbound : forall i x, at_ (cumsum p) i x -> 0 <= x /\ x <= 1).
    { intros i x Hx. apply cumsum_nth_eq in Hx as [Hi Hx]. rewrite Hx. apply nonneg_Forall in Hnn. split.
      - apply qsum_nonneg. apply Forall_forall. intros y Hy. rewrite Forall_forall in Hnn. apply Hnn.
        rewrite <- (firstn_skipn (S i) p). apply in_or_app. left. exact Hy.
      - apply Qle_trans with (qsum (firstn (length p) p)); [apply qsum_firstn_mono; auto; lia|].
        rewrite firstn_all, <- total_qsum, Hsum. lra. }
    split; [|split; [|split]].
    - intro H. apply (f_equal (@length Q)) in H. rewrite cumsum_length in H. simpl in H. lia.
    - apply cumsum_nondecreasing. exact Hnn.
    - intros i x Hx. apply Hbound in Hx. unfold eps_cdf. lra.
    - intros x Hx. rewrite cumsum_length in Hx. apply cumsum_nth_eq in Hx as [Hi Hx].
      replace (S (length p - 1)) with (length p) in Hx by lia. rewrite firstn_all, <- total_qsum, Hsum in Hx.
      unfold eps_cdf. lra.
  Qed.

  Lemma map_repeat' : forall A B (f : A -> B) x n, map f (repeat x n) = repeat (f x) n.
  Proof. induction n; simpl; congruence. Qed.

  Lemma at_concat : forall A (ll : list (list A)) k x, at_ (concat ll) k x -> exists i l j, at_ ll i l /\ at_ l j x.
  Proof.
    intros A ll k x H. apply at_in in H. apply in_concat in H as (l & Hl & Hx).
    apply in_at in Hl as [i Hi]. apply in_at in Hx as [j Hj]. eauto.
  Qed.

  Lemma tpm_iter_ok : forall tpms n check, tpms <> [] -> (forall t m, at_ tpms t m -> stochastic n m) ->
    exists it, tpm_iter tpms check = Ok it /\ cyc_ok (map (map cumsum) tpms) 1 it.
  Proof.
    intros tpms n check Hne Hst. unfold tpm_iter.
    replace (concat (map (map cumsum) tpms)) with (map cumsum (concat tpms)) by (rewrite concat_map; reflexivity).
    rewrite check_cdfs_pdf.
    - cbn [bind]. destruct (cyc_next_ok (map_ne (map cumsum) Hne) (cyc_new_ok _)) as (x & it & H & _ & Hit).
      rewrite H. cbn [bind snd]. eauto.
    - intros k p Hk. apply at_concat in Hk as (i & m & j & Hi & Hj). eapply Hst; eauto.
  Qed.

  Lemma at_repeat : forall A (x : A) n k, (k < n)%nat -> at_ (repeat x n) k x.
  Proof. intros A x n k H. unfold at_. apply nth_error_repeat. exact H. Qed.

  Lemma chain_start_ok : forall n_hh n_st tpms (labels : list L) (c0 : chain0 L) pdf check u,
    tpms <> [] -> (forall t m, at_ tpms t m -> stochastic n_st m) -> length pdf = n_st -> is_pdf pdf -> unit_draws u ->
    chain_init n_hh n_st tpms labels = Ok c0 ->
    exists c, chain_start c0 pdf 0 check u = Ok c /\ chain_ok tpms n_st 1 c /\
      length (c_states c) = n_hh /\ c_ticks c = 0%Z /\ c_n c = n_hh /\ c_labels c = labels /\
      forall i s, at_ (c_states c) i s -> selects pdf (u i) s.
  Proof.
    intros n_hh n_st tpms labels c0 pdf check u Hne Hst Hlen Hpdf Hu Hinit. unfold chain_init in Hinit.
    destruct (n_hh =? 0)%nat; [discriminate|]. destruct (forallb (square n_st) tpms); [|discriminate]. cbn [negb] in Hinit.
    destruct (length labels =? n_st)%nat; [|discriminate]. cbn [negb] in Hinit. injection Hinit as <-.
    unfold chain_start. cbn [c0_n c0_states c0_tpms c0_labels Nat.eqb negb]. rewrite Hlen, Nat.eqb_refl. cbn [negb].
    assert (Hall : forall k p, at_ (repeat pdf n_hh) k p -> is_pdf p) by (intros k p H; apply repeat_at in H; subst; auto).
    rewrite <- (map_repeat' cumsum). rewrite check_cdfs_pdf by exact Hall. cbn [bind].
    destruct (@mc_rows_pdf (repeat pdf n_hh) u Hall Hu) as (st & Hmc & Hl & Hk). rewrite Hmc. cbn [bind]. rewrite repeat_length in Hl.
    assert (Hsel : forall i s, at_ st i s -> selects pdf (u i) s).
    { intros i s Hi. pose proof (at_lt _ _ _ _ Hi) as Hlt. rewrite Hl in Hlt. destruct (Hk i pdf (at_repeat pdf Hlt)) as (s' & Hs' & Hsel).
      rewrite (at_fun _ _ _ _ _ Hi Hs'). exact Hsel. }
    assert (Hf : forallb (fun s => s <? n_st)%nat st = true).
    { apply forallb_forall. intros s Hs. apply in_at in Hs as [i Hi]. apply Hsel in Hi as [Hi _]. apply Nat.ltb_lt. congruence. }
    rewrite Hf. cbn [negb]. destruct (@tpm_iter_ok tpms n_st check Hne Hst) as (it & Hit & Hc). rewrite Hit. cbn [bind].
    eexists. split; [reflexivity|]. cbn [c_states c_ticks c_n c_labels]. split; [|auto 10].
    split; [reflexivity|]. split; [exact Hc|]. cbn [c_states]. intros i s Hi. apply Hsel in Hi as [Hi _]. congruence.
  Qed.

  (** Whole executions. *)
  Lemma chain_execution : forall n_hh n_st tpms (labels : list L) (c0 : chain0 L) pdf check u0 hist,
    tpms <> [] -> (forall t m, at_ tpms t m -> stochastic n_st m) -> length pdf = n_st -> is_pdf pdf -> unit_draws u0 ->
    (forall k u, at_ hist k u -> unit_draws u) ->
    chain_init n_hh n_st tpms labels = Ok c0 ->
    exists c, chain_start c0 pdf 0 check u0 = Ok c /\
      (forall i s, at_ (c_states c) i s -> selects pdf (u0 i) s) /\
      (forall k, (k <= length hist)%nat -> exists ck, chain_run (firstn k hist) c = Ok ck /\
         length (c_states ck) = n_hh /\ c_ticks ck = Z.of_nat k) /\
      (forall k u ck ck1, at_ hist k u -> chain_run (firstn k hist) c = Ok ck -> chain_run (firstn (S k) hist) c = Ok ck1 ->
         forall i s, at_ (c_states ck) i s -> exists row s',
           row_at tpms (S k mod length tpms) s row /\ at_ (c_states ck1) i s' /\ selects row (u i) s' /\ possible row s').
  Proof.
    intros n_hh n_st tpms labels c0 pdf check u0 hist Hne Hst Hlen Hpdf Hu0 Hu Hinit.
    destruct (@chain_start_ok n_hh n_st tpms labels c0 pdf check u0 Hne Hst Hlen Hpdf Hu0 Hinit)
      as (c & Hc & Hok & Hl & Ht & _ & _ & Hsel).
    exists c. split; [exact Hc|]. split; [exact Hsel|].
    assert (Hrun : forall k, exists ck, chain_run (firstn k hist) c = Ok ck /\ chain_ok tpms n_st (1 + length (firstn k hist)) ck /\
         length (c_states ck) = length (c_states c) /\ c_ticks ck = (c_ticks c + Z.of_nat (length (firstn k hist)))%Z).
    { intros k. apply chain_run_ok; auto. intros j v Hj. eapply Hu, at_firstn, Hj. }
    split.
    - intros k Hk. destruct (Hrun k) as (ck & H1 & _ & H2 & H3). exists ck. split; [exact H1|]. split; [congruence|].
      rewrite H3, Ht, firstn_length_le by exact Hk. lia.
    - intros k u ck ck1 Hk Hck Hck1 i s Hi. destruct (Hrun k) as (ck' & H1 & H2 & _). rewrite H1 in Hck. injection Hck as ->.
      rewrite (firstn_S_at Hk), chain_run_app, H1 in Hck1. cbn [bind chain_run] in Hck1.
      rewrite firstn_length_le in H2 by (pose proof (at_lt _ _ _ _ Hk); lia).
      destruct (@chain_step_ok tpms n_st (1 + k) ck u Hne Hst (Hu _ _ Hk) H2) as (c' & Hstep & _ & _ & _ & _ & _ & Hall).
      rewrite Hstep in Hck1. cbn [bind] in Hck1. injection Hck1 as <-. destruct (Hall i s Hi) as (row & s' & Hrow & Hs' & Hs).
      exists row, s'. split; [exact Hrow|]. split; [exact Hs'|]. split; [exact Hs|]. eapply selects_possible; [|exact Hs].
      destruct Hrow as (m & Hm & Hr). destruct (Hst _ _ Hm) as [_ Hr']. apply Hr' in Hr as [_ [Hr _]]. exact Hr.
  Qed.
End ChainProofs.
