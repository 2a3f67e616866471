(** * Proofs about the semi-Markov simulator. *)

From Coq Require Import List ZArith QArith Bool Lia Lqa Arith.
From Verif Require Import Prelude PreludeFacts SpecBase SpecBaseFacts Sampling_Model Sampling_Spec Sampling_Proofs
  Parse_Model Parse_Proofs Activity_Model Activity_Spec Activity_Proofs.
Import ListNotations.

Set Implicit Arguments.

Lemma compress_rank : forall A (m : list bool) (l : list A) i, length l = length m -> nth_error m i = Some true ->
  nth_error (compress m l) (count_true (firstn i m)) = nth_error l i.
Proof.
  induction m as [|b m IH]; intros [|x l] [|i] Hl H; simpl in *; try discriminate.
  - injection H as ->. reflexivity.
  - unfold count_true in *. destruct b; simpl; apply IH; auto.
Qed.

Lemma mask_assign_nth : forall A (m : list bool) (v l : list A) i, length l = length m -> length v = count_true m ->
  nth_error (mask_assign m v l) i =
  match nth_error m i with
  | Some true => nth_error v (count_true (firstn i m))
  | _ => nth_error l i
  end.
Proof.
  induction m as [|b m IH]; intros v [|x l] i Hl Hv; simpl in *; try discriminate.
  - destruct i; reflexivity.
  - unfold count_true in *. destruct b; simpl in *.
    + destruct v as [|y v]; [discriminate|]. destruct i as [|i]; simpl; [reflexivity|]. apply IH; simpl in *; lia.
    + destruct i as [|i]; simpl; [reflexivity|]. apply IH; simpl in *; lia.
Qed.

Lemma count_true_map : forall A (f : A -> bool) l, count_true (map f l) = length (filter f l).
Proof. intros A f. unfold count_true. induction l as [|x l IH]; simpl; [reflexivity|]. destruct (f x); simpl; congruence. Qed.

Lemma rank_count : forall A (f : A -> bool) l i, rank f l i = count_true (firstn i (map f l)).
Proof. intros. unfold rank. rewrite firstn_map, count_true_map. reflexivity. Qed.

Lemma rank_lt : forall A (f : A -> bool) l i x, at_ l i x -> f x = true -> (rank f l i < length (filter f l))%nat.
Proof.
  induction l as [|y l IH]; intros [|i] x H Hf; unfold at_ in H; simpl in H; try discriminate; unfold rank in *; simpl.
  - injection H as ->. rewrite Hf. simpl. lia.
  - specialize (IH i x H Hf). destruct (f y); simpl; lia.
Qed.

Section SemiProofs.
  Variable L : Type.

  Definition tables_of (d : dur_pdfs) : dur_tables :=
    match d with Pdf3 l => ByNew l | Pdf4 l => ByOldNew l end.

  Definition dur_ok (d : dur_pdfs) (k : nat) (it : dur_iter) : Prop :=
    match d, it with
    | Pdf3 l, Dur3 c => cyc_ok (map (map cumsum) l) k c
    | Pdf4 l, Dur4 c => cyc_ok (map (map (map cumsum)) l) k c
    | _, _ => False
    end.

  Lemma in_combine_at' : forall A B (xs : list A) (ys : list B) k x y, at_ (combine xs ys) k (x, y) -> at_ xs k x /\ at_ ys k y.
  Proof.
    induction xs as [|a xs IH]; intros [|b ys] [|k] x y H; unfold at_ in *; simpl in *; try discriminate.
    - injection H as -> ->. auto.
    - apply IH; exact H.
  Qed.

  Lemma dur_rows_ok : forall d n k it prev new, dur_valid n (tables_of d) -> dur_ok d k it ->
    length new = length prev ->
    (forall j s, at_ prev j s -> (s < n)%nat) -> (forall j s, at_ new j s -> (s < n)%nat) ->
    exists prows it', dur_rows it prev new = Ok (map cumsum prows, it') /\ dur_ok d (S k) it' /\
      length prows = length prev /\ (forall j p, at_ prows j p -> is_pdf p) /\
      forall j s s', at_ prev j s -> at_ new j s' -> exists row, at_ prows j row /\
        dur_row (tables_of d) (k mod dur_length (tables_of d)) s s' row.
  Proof.
    intros d n k it prev new [Hpos Hd] Hit Hlen Hprev Hnew. destruct d as [l|l]; destruct it as [c|c]; try contradiction; simpl in *.
    - assert (Hne : l <> []) by (destruct l; simpl in *; [lia|congruence]).
      destruct (cyc_next_ok (map_ne (map cumsum) Hne) Hit) as (x & c' & Hnext & Hx & Hc').
      rewrite map_length in Hx. unfold at_ in Hx. rewrite nth_error_map in Hx.
      destruct (nth_error l (k mod length l)) as [m|] eqn:Em; [|discriminate]. injection Hx as <-.
      destruct (Hd _ _ Em) as [Hml Hm]. rewrite Hnext. cbn [bind fst snd].
      destruct (mapM_get m new) as (prows & Hp & Hpl & Hpk).
      { intros s Hs. apply in_at in Hs as [j Hj]. rewrite Hml. eapply Hnew; eauto. }
      rewrite (mapM_get_map cumsum _ _ Hp). cbn [bind]. exists prows, (Dur3 c'). split; [reflexivity|].
      split; [exact Hc'|]. split; [congruence|]. split.
      + intros j p Hj. pose proof (at_lt _ _ _ _ Hj) as Hlt. rewrite Hpl in Hlt. destruct (lt_at _ _ _ Hlt) as [s Hs].
        destruct (Hpk _ _ Hs) as (p' & Hp' & Hmp). rewrite (at_fun _ _ _ _ _ Hj Hp'). eapply Hm; eauto.
      + intros j s s' _ Hs'. destruct (Hpk _ _ Hs') as (row & Hr & Hmr). exists row. split; [exact Hr|]. exists m. auto.
    - assert (Hne : l <> []) by (destruct l; simpl in *; [lia|congruence]).
      destruct (cyc_next_ok (map_ne (map (map cumsum)) Hne) Hit) as (x & c' & Hnext & Hx & Hc').
      rewrite map_length in Hx. unfold at_ in Hx. rewrite nth_error_map in Hx.
      destruct (nth_error l (k mod length l)) as [m|] eqn:Em; [|discriminate]. injection Hx as <-.
      destruct (Hd _ _ Em) as [Hml Hm]. rewrite Hnext. cbn [bind fst snd].
      set (f := fun pn : nat * nat => bind (get_at m (fst pn)) (fun m' => get_at m' (snd pn))).
      assert (Hf : forall s s', (s < n)%nat -> (s' < n)%nat -> exists m' row, at_ m s m' /\ at_ m' s' row /\ f (s, s') = Ok row).
      { intros s s' H1 H2. rewrite <- Hml in H1. destruct (lt_at _ _ _ H1) as [m' Hm'].
        destruct (Hm _ _ Hm') as [Hm'l _]. rewrite <- Hm'l in H2. destruct (lt_at _ _ _ H2) as [row Hrow].
        exists m', row. split; [exact Hm'|]. split; [exact Hrow|]. unfold f. cbn [fst snd].
        rewrite (proj2 (get_at_ok _ _ _) Hm'). cbn [bind]. apply get_at_ok. exact Hrow. }
      assert (Hmap : forall pns out, mapM f pns = Ok out ->
        mapM (fun pn => bind (get_at (map (map cumsum) m) (fst pn)) (fun m => get_at m (snd pn))) pns = Ok (map cumsum out)).
      { induction pns as [|[s s'] pns IH]; intros out Hout; simpl in *; [injection Hout as <-; reflexivity|].
        unfold f at 1 in Hout. cbn [fst snd] in Hout. unfold get_at in *. rewrite nth_error_map.
        destruct (nth_error m s) as [m'|]; [|discriminate]. simpl in *. rewrite nth_error_map.
        destruct (nth_error m' s') as [row|]; [|discriminate]. simpl in *.
        destruct (mapM f pns) as [o|]; [|discriminate]. simpl in Hout. injection Hout as <-. rewrite (IH o eq_refl). reflexivity. }
      destruct (mapM_total _ _ f (combine prev new)) as [prows Hp].
      { intros [s s'] Hin. apply in_at in Hin as [j Hj]. apply in_combine_at' in Hj as [H1 H2].
        destruct (Hf s s' (Hprev _ _ H1) (Hnew _ _ H2)) as (m' & row & _ & _ & H). eauto. }
      rewrite (Hmap _ _ Hp). cbn [bind]. apply mapM_ok in Hp as [Hpl Hpk].
      rewrite combine_length, Hlen, Nat.min_id in Hpl.
      assert (Hall : forall j s s', at_ prev j s -> at_ new j s' -> exists m' row, at_ prows j row /\ at_ m s m' /\ at_ m' s' row).
      { intros j s s' H1 H2. destruct (Hpk j (s, s') (combine_at _ _ _ H1 H2)) as (row & Hr & Hfr).
        destruct (Hf s s' (Hprev _ _ H1) (Hnew _ _ H2)) as (m' & row' & Hm' & Hr' & Hfr').
        rewrite Hfr in Hfr'. injection Hfr' as ->. eauto. }
      exists prows, (Dur4 c'). split; [reflexivity|]. split; [exact Hc'|]. split; [exact Hpl|]. split.
      + intros j p Hj. pose proof (at_lt _ _ _ _ Hj) as Hlt. rewrite Hpl in Hlt. destruct (lt_at _ _ _ Hlt) as [s Hs].
        rewrite <- Hlen in Hlt. destruct (lt_at _ _ _ Hlt) as [s' Hs']. destruct (Hall _ _ _ Hs Hs') as (m' & row & Hr & Hm' & Hr').
        rewrite (at_fun _ _ _ _ _ Hj Hr). eapply Hm; eauto.
      + intros j s s' Hs Hs'. destruct (Hall _ _ _ Hs Hs') as (m' & row & Hr & Hm' & Hr'). exists row. split; [exact Hr|].
        exists m'. split; [|exact Hr']. exists m. auto.
  Qed.

  Definition semi_ok (tpms : list (list (list Q))) (d : dur_pdfs) (n k : nat) (s : semi L) : Prop :=
    chain_ok tpms n k (s_chain s) /\ dur_ok d k (s_dur s) /\ length (s_left s) = length (c_states (s_chain s)).

  Lemma at_compress_in : forall A m (l : list A) k x, at_ (compress m l) k x -> In x l.
  Proof.
    induction m as [|b m IH]; intros [|y l] k x H; simpl in *; try (destruct k; discriminate).
    destruct b.
    - destruct k as [|k]; [injection H as ->; auto|]. right. eapply IH, H.
    - right. eapply IH, H.
  Qed.

  Lemma semi_step_ok : forall tpms d n k s u v, tpms <> [] -> (forall t m, at_ tpms t m -> stochastic n m) ->
    dur_valid n (tables_of d) -> unit_draws u -> unit_draws v -> semi_ok tpms d n k s ->
    exists s', semi_step s (u, v) = Ok s' /\ semi_ok tpms d n (S k) s' /\
      length (s_left s') = length (s_left s) /\ c_ticks (s_chain s') = (c_ticks (s_chain s) + 1)%Z /\
      forall i x l, at_ (c_states (s_chain s)) i x -> at_ (s_left s) i l ->
        (over l = false -> at_ (c_states (s_chain s')) i x /\ at_ (s_left s') i (l - 1)%Z) /\
        (over l = true -> exists row x' drow e,
           row_at tpms (k mod length tpms) x row /\ selects row (u (rank over (s_left s) i)) x' /\
           dur_row (tables_of d) (k mod dur_length (tables_of d)) x x' drow /\
           selects drow (v (rank over (s_left s) i)) e /\
           at_ (c_states (s_chain s')) i x' /\ at_ (s_left s') i (Z.of_nat e - 1)%Z).
  Proof.
    intros tpms d n k s u v Hne Hst Hd Hu Hv ((Hn & Hit & Hs) & Hdi & Hleft).
    destruct (cyc_next_ok (map_ne _ Hne) Hit) as (x & it' & Hnext & Hx & Hit').
    rewrite map_length in Hx. unfold at_ in Hx. rewrite nth_error_map in Hx.
    destruct (nth_error tpms (k mod length tpms)) as [m|] eqn:Em; [|discriminate]. injection Hx as <-.
    destruct (Hst _ _ Em) as [Hlen Hrows].
    set (mask := map (fun t => t <? 1)%Z (s_left s)).
    set (prev := compress mask (c_states (s_chain s))).
    assert (Hmask : length mask = length (c_states (s_chain s))) by (unfold mask; rewrite map_length; exact Hleft).
    assert (Hprev : forall j q, at_ prev j q -> (q < n)%nat).
    { intros j q Hj. apply at_compress_in in Hj. apply in_at in Hj as [i Hi]. eapply Hs; eauto. }
    assert (Hprevl : length prev = count_true mask) by (unfold prev; apply compress_length; exact Hmask).
    destruct (mapM_get m prev) as (prows & Hp & Hpl & Hpk).
    { intros q Hin. apply in_at in Hin as [i Hi]. rewrite Hlen. eapply Hprev; eauto. }
    assert (Hpdf : forall j p, at_ prows j p -> length p = n /\ is_pdf p).
    { intros j p Hj. pose proof (at_lt _ _ _ _ Hj) as Hlt. rewrite Hpl in Hlt. destruct (lt_at _ _ _ Hlt) as [q Hq].
      destruct (Hpk _ _ Hq) as (p' & Hp' & Hm). rewrite (at_fun _ _ _ _ _ Hj Hp'). eapply Hrows; eauto. }
    destruct (@mc_rows_pdf prows u (fun j p H => proj2 (Hpdf j p H)) Hu) as (new & Hout & Hol & Hok).
    assert (Hnew : forall j q, at_ new j q -> (q < n)%nat).
    { intros j q Hj. pose proof (at_lt _ _ _ _ Hj) as Hlt. rewrite Hol in Hlt. destruct (lt_at _ _ _ Hlt) as [p Hpj].
      destruct (Hok _ _ Hpj) as (q' & Hq' & Hsel). rewrite (at_fun _ _ _ _ _ Hj Hq'). destruct Hsel as [Hsel _].
      rewrite (proj1 (Hpdf _ _ Hpj)) in Hsel. exact Hsel. }
    destruct (@dur_rows_ok d n k (s_dur s) prev new Hd Hdi ltac:(lia) Hprev Hnew) as (drows & dit & Hdr & Hdit & Hdl & Hdpdf & Hdk).
    destruct (@mc_rows_pdf drows v Hdpdf Hv) as (ts & Hts & Htl & Htk).
    unfold semi_step. cbn [fst snd]. fold mask prev. rewrite Hnext. cbn [bind fst snd].
    rewrite (mapM_get_map cumsum _ _ Hp). cbn [bind]. rewrite Hout. cbn [bind]. rewrite Hdr. cbn [bind fst snd]. rewrite Hts. cbn [bind].
    eexists. split; [reflexivity|]. cbn [s_chain s_left s_dur c_states c_ticks].
    assert (Hnth : forall i l, at_ (s_left s) i l -> nth_error mask i = Some (l <? 1)%Z).
    { intros i l Hi. unfold mask. rewrite nth_error_map, Hi. reflexivity. }
    assert (Hst' : forall i, nth_error (mask_assign mask new (c_states (s_chain s))) i =
      match nth_error mask i with Some true => nth_error new (count_true (firstn i mask)) | _ => nth_error (c_states (s_chain s)) i end).
    { intros i. apply mask_assign_nth; [congruence|lia]. }
    assert (Hlf' : forall i, nth_error (mask_assign mask (map Z.of_nat ts) (s_left s)) i =
      match nth_error mask i with Some true => nth_error (map Z.of_nat ts) (count_true (firstn i mask)) | _ => nth_error (s_left s) i end).
    { intros i. apply mask_assign_nth; [congruence|rewrite map_length; lia]. }
    split; [|split; [|split]].
    - split; [|split].
      + split; [exact Hn|]. split; [exact Hit'|]. cbn [c_states]. intros i q Hi. unfold at_ in Hi. rewrite Hst' in Hi.
        destruct (nth_error mask i) as [[|]|]; [eapply Hnew; exact Hi|eapply Hs; exact Hi|eapply Hs; exact Hi].
      + exact Hdit.
      + cbn [s_left s_chain c_states]. rewrite map_length, !mask_assign_length. exact Hleft.
    - rewrite map_length, mask_assign_length. reflexivity.
    - reflexivity.
    - intros i q l Hq Hl. pose proof (Hnth _ _ Hl) as Hm. unfold at_. split; intro Hov; unfold over in Hov.
      + rewrite nth_error_map, Hlf', Hst', Hm, Hov. rewrite Hl. split; [exact Hq|reflexivity].
      + rewrite nth_error_map, Hlf', Hst', Hm, Hov.
        assert (Hrk : rank (fun t => (t <? 1)%Z) (s_left s) i = count_true (firstn i mask)) by apply rank_count.
        change (rank (fun t => (t <? 1)%Z) (s_left s) i) with (rank over (s_left s) i) in Hrk. rewrite Hrk.
        set (j := count_true (firstn i mask)).
        assert (Hpj : at_ prev j q).
        { unfold at_, prev, j. rewrite compress_rank; [exact Hq|congruence|congruence]. }
        destruct (Hpk _ _ Hpj) as (row & Hrow & Hmrow). destruct (Hok _ _ Hrow) as (q' & Hq' & Hsel).
        destruct (Hdk _ _ _ Hpj Hq') as (drow & Hdrow & Hdr'). destruct (Htk _ _ Hdrow) as (e & He & Hsel').
        exists row, q', drow, e. split; [exists m; split; [exact Em|exact Hmrow]|]. split; [exact Hsel|].
        split; [exact Hdr'|]. split; [exact Hsel'|]. split; [exact Hq'|]. rewrite nth_error_map, He. reflexivity.
  Qed.

  Lemma semi_run_app : forall h1 h2 (s : semi L), semi_run (h1 ++ h2) s = bind (semi_run h1 s) (semi_run h2).
  Proof. induction h1 as [|u h1 IH]; intros h2 s; simpl; [reflexivity|]. destruct (semi_step s u); simpl; auto. Qed.

  Lemma semi_run_ok : forall tpms d n hist k s, tpms <> [] -> (forall t m, at_ tpms t m -> stochastic n m) ->
    dur_valid n (tables_of d) -> (forall j uv, at_ hist j uv -> unit_draws (fst uv) /\ unit_draws (snd uv)) ->
    semi_ok tpms d n k s ->
    exists s', semi_run hist s = Ok s' /\ semi_ok tpms d n (k + length hist) s' /\ length (s_left s') = length (s_left s).
  Proof.
    induction hist as [|[u v] hist IH]; intros k s Hne Hst Hd Hu Hs; simpl.
    - exists s. rewrite Nat.add_0_r. auto.
    - destruct (Hu O (u, v) eq_refl) as [H1 H2]; cbn [fst snd] in H1, H2.
      destruct (semi_step_ok Hne Hst Hd H1 H2 Hs) as (s1 & Hs1 & Hok1 & Hl1 & _).
      rewrite Hs1. cbn [bind]. destruct (IH (S k) s1 Hne Hst Hd (fun j uv H => Hu (S j) uv H) Hok1) as (s' & H' & Hok' & Hl').
      exists s'. split; [exact H'|]. rewrite Nat.add_succ_r. split; [exact Hok'|congruence].
  Qed.

  (** A subject with [e] steps left keeps its state for [e] more steps. *)
  Lemma keeps_state : forall tpms d n hist k s i x, tpms <> [] -> (forall t m, at_ tpms t m -> stochastic n m) ->
    dur_valid n (tables_of d) -> (forall j uv, at_ hist j uv -> unit_draws (fst uv) /\ unit_draws (snd uv)) ->
    semi_ok tpms d n k s -> at_ (c_states (s_chain s)) i x ->
    forall j e s', at_ (s_left s) i e -> (Z.of_nat j <= e)%Z -> (j <= length hist)%nat ->
    semi_run (firstn j hist) s = Ok s' -> at_ (c_states (s_chain s')) i x /\ at_ (s_left s') i (e - Z.of_nat j)%Z.
  Proof.
    induction hist as [|[u v] hist IH]; intros k s i x Hne Hst Hd Hu Hs Hx j e s' He Hj Hjl Hrun.
    - assert (j = 0)%nat as -> by (simpl in Hjl; lia). simpl in Hrun. injection Hrun as <-. split; [exact Hx|].
      change (Z.of_nat 0) with 0%Z. rewrite Z.sub_0_r. exact He.
    - destruct j as [|j].
      + simpl in Hrun. injection Hrun as <-. split; [exact Hx|]. change (Z.of_nat 0) with 0%Z. rewrite Z.sub_0_r. exact He.
      + destruct (Hu O (u, v) eq_refl) as [H1 H2]; cbn [fst snd] in H1, H2.
        destruct (semi_step_ok Hne Hst Hd H1 H2 Hs) as (s1 & Hs1 & Hok1 & Hl1 & _ & Hall).
        cbn [firstn semi_run] in Hrun. rewrite Hs1 in Hrun. cbn [bind] in Hrun.
        destruct (Hall i x e Hx He) as [Hkeep _]. destruct Hkeep as [Hx1 He1]; [unfold over; apply Z.ltb_ge; lia|].
        destruct (IH (S k) s1 i x Hne Hst Hd (fun j uv H => Hu (S j) uv H) Hok1 Hx1 j (e - 1)%Z s' He1) as [Ha Hb]; auto.
        * lia.
        * simpl in Hjl. lia.
        * split; [exact Ha|]. replace (e - Z.of_nat (S j))%Z with (e - 1 - Z.of_nat j)%Z by lia. exact Hb.
  Qed.

  Lemma firstn_add_skip : forall A (l : list A) a b, firstn (a + b) l = firstn a l ++ firstn b (skipn a l).
  Proof. induction l as [|x l IH]; intros [|a] b; simpl; auto; [destruct b; reflexivity|]. f_equal. apply IH. Qed.

  (** ** Whole executions *)

  (** Every episode: a subject whose timer has run out at step [k] moves by the
      matrix of that step, and stays for exactly the sampled duration. *)
  Lemma episode : forall tpms d n hist s0 k uv sk i x l, tpms <> [] -> (forall t m, at_ tpms t m -> stochastic n m) ->
    dur_valid n (tables_of d) -> (forall j uv, at_ hist j uv -> unit_draws (fst uv) /\ unit_draws (snd uv)) ->
    semi_ok tpms d n 1 s0 -> at_ hist k uv ->
    semi_run (firstn k hist) s0 = Ok sk -> at_ (c_states (s_chain sk)) i x -> at_ (s_left sk) i l ->
    over l = true ->
    exists row x' drow e,
      row_at tpms (S k mod length tpms) x row /\ selects row (fst uv (rank over (s_left sk) i)) x' /\
      dur_row (tables_of d) (S k mod dur_length (tables_of d)) x x' drow /\
      selects drow (snd uv (rank over (s_left sk) i)) e /\
      forall j, (1 <= j <= Nat.max 1 e)%nat -> (k + j <= length hist)%nat ->
        exists sj l', semi_run (firstn (k + j) hist) s0 = Ok sj /\ at_ (c_states (s_chain sj)) i x' /\
          at_ (s_left sj) i l' /\ (over l' = true <-> j = Nat.max 1 e).
  Proof.
    intros tpms d n hist s0 k [u v] sk i x l Hne Hst Hd Hu Hs0 Hk Hrun Hx Hl Hov.
    assert (Hlen : length (firstn k hist) = k) by (apply firstn_length_le; pose proof (at_lt _ _ _ _ Hk); lia).
    destruct (@semi_run_ok tpms d n (firstn k hist) 1 s0 Hne Hst Hd) as (sk' & Hrun' & Hok & _); auto.
    { intros j uv Hj. eapply Hu, at_firstn, Hj. }
    rewrite Hrun in Hrun'. injection Hrun' as <-. rewrite Hlen in Hok.
    destruct (Hu _ _ Hk) as [Hu1 Hu2]; cbn [fst snd] in Hu1, Hu2.
    destruct (semi_step_ok Hne Hst Hd Hu1 Hu2 Hok) as (s1 & Hs1 & Hok1 & Hl1 & _ & Hall).
    destruct (Hall i x l Hx Hl) as [_ Hch]. destruct (Hch Hov) as (row & x' & drow & e & Hrow & Hsel & Hdr & Hsel' & Hx' & He).
    exists row, x', drow, e. split; [exact Hrow|]. split; [exact Hsel|]. split; [exact Hdr|]. split; [exact Hsel'|].
    intros j Hj Hkj.
    destruct j as [|j]; [lia|].
    assert (Hfirst : firstn (k + S j) hist = firstn k hist ++ (u, v) :: firstn j (skipn (S k) hist)).
    { rewrite firstn_add_skip. f_equal.
      assert (Hsk : skipn k hist = (u, v) :: skipn (S k) hist).
      { clear -Hk. revert k Hk. induction hist as [|a hist IH]; intros [|k] Hk; unfold at_ in Hk; simpl in *; try discriminate.
        - injection Hk as ->. reflexivity.
        - apply IH. exact Hk. }
      rewrite Hsk. reflexivity. }
    destruct (@semi_run_ok tpms d n (firstn j (skipn (S k) hist)) (S (1 + k)) s1 Hne Hst Hd) as (sj & Hsj & Hokj & _); auto.
    { intros a uv Ha. apply at_firstn in Ha. apply at_in in Ha. assert (Hin : In uv hist).
      { rewrite <- (firstn_skipn (S k) hist). apply in_or_app. right. exact Ha. }
      apply in_at in Hin as [b Hb]. eapply Hu; eauto. }
    assert (Hrunj : semi_run (firstn (k + S j) hist) s0 = Ok sj).
    { rewrite Hfirst, semi_run_app, Hrun. cbn [bind semi_run]. rewrite Hs1. cbn [bind]. exact Hsj. }
    destruct (Z_lt_le_dec (Z.of_nat e - 1) 0) as [Hneg|Hpos].
    - assert (e = 0)%nat as -> by lia. assert (j = 0)%nat as -> by lia. simpl in Hsj. injection Hsj as <-.
      do 2 eexists. split; [exact Hrunj|]. split; [exact Hx'|]. split; [exact He|]. split; reflexivity.
    - destruct (@keeps_state tpms d n (skipn (S k) hist) (S (1 + k)) s1 i x' Hne Hst Hd) with (j := j) (e := (Z.of_nat e - 1)%Z) (s' := sj)
        as [Ha Hb]; auto.
      { intros a uv Ha. apply at_in in Ha. assert (Hin : In uv hist).
        { rewrite <- (firstn_skipn (S k) hist). apply in_or_app. right. exact Ha. }
        apply in_at in Hin as [b Hb]. eapply Hu; eauto. }
      { lia. }
      { rewrite skipn_length. lia. }
      do 2 eexists. split; [exact Hrunj|]. split; [exact Ha|]. split; [exact Hb|]. unfold over. rewrite Z.ltb_lt. lia.
  Qed.

  Lemma concat_map3 : forall l : list (list (list (list Q))),
    concat (concat (map (map (map cumsum)) l)) = map cumsum (concat (concat l)).
  Proof. intros l. rewrite !concat_map. reflexivity. Qed.

  Lemma dur_iter_ok : forall n d, dur_valid n (tables_of d) -> exists it, dur_iter_of n d = Ok it /\ dur_ok d 1 it.
  Proof.
    intros n d [Hpos Hd]. destruct d as [l|l]; cbn [tables_of dur_length dur_iter_of dur_ok] in *.
    - assert (Hf : forallb (fun m => length m =? n)%nat l = true).
      { apply forallb_forall. intros m Hm. apply in_at in Hm as [t Ht]. apply Hd in Ht as [Ht _]. apply Nat.eqb_eq. exact Ht. }
      rewrite Hf. cbn [negb]. rewrite <- concat_map. rewrite (@check_cdfs_pdf true).
      + cbn [bind]. assert (Hne : map (map cumsum) l <> []) by (apply map_ne; destruct l; simpl in *; [lia|congruence]).
        destruct (cyc_next_ok Hne (cyc_new_ok _)) as (x & it & H & _ & Hit). rewrite H. cbn [bind snd]. eauto.
      + intros k p Hk. apply at_concat in Hk as (i & m & j & Hi & Hj). eapply Hd; eauto.
    - assert (Hf : forallb (fun m => length m =? n)%nat l = true).
      { apply forallb_forall. intros m Hm. apply in_at in Hm as [t Ht]. apply Hd in Ht as [Ht _]. apply Nat.eqb_eq. exact Ht. }
      rewrite Hf. cbn [negb]. rewrite concat_map3. rewrite (@check_cdfs_pdf true).
      + cbn [bind]. assert (Hne : map (map (map cumsum)) l <> []) by (apply map_ne; destruct l; simpl in *; [lia|congruence]).
        destruct (cyc_next_ok Hne (cyc_new_ok _)) as (x & it & H & _ & Hit). rewrite H. cbn [bind snd]. eauto.
      + intros k p Hk. apply at_concat in Hk as (i & m & j & Hi & Hj). apply at_concat in Hi as (i' & m' & j' & Hi' & Hj').
        eapply Hd; eauto.
  Qed.

  Lemma semi_start_ok : forall n_hh n_st tpms (labels : list L) c0 d pdf sdurs check u v,
    tpms <> [] -> (forall t m, at_ tpms t m -> stochastic n_st m) -> length pdf = n_st -> is_pdf pdf ->
    dur_valid n_st (tables_of d) -> length sdurs = n_st -> (forall x row, at_ sdurs x row -> is_pdf row) ->
    unit_draws u -> unit_draws v ->
    chain_init n_hh n_st tpms labels = Ok c0 ->
    exists s, semi_start c0 d pdf sdurs 0 check u v = Ok s /\ semi_ok tpms d n_st 1 s /\
      length (s_left s) = n_hh /\
      forall i x, at_ (c_states (s_chain s)) i x -> selects pdf (u i) x /\
        exists row e, at_ sdurs x row /\ selects row (v i) e /\ at_ (s_left s) i (Z.of_nat e - 1)%Z.
  Proof.
    intros n_hh n_st tpms labels c0 d pdf sdurs check u v Hne Hst Hlen Hpdf Hd Hsl Hsd Hu Hv Hinit.
    destruct (@chain_start_ok L n_hh n_st tpms labels c0 pdf check u Hne Hst Hlen Hpdf Hu Hinit)
      as (c & Hc & Hok & Hl & _ & _ & _ & Hsel).
    pose proof Hok as (Hn & _ & Hlt).
    unfold semi_start. rewrite Hc. cbn [bind].
    destruct (mapM_get sdurs (c_states c)) as (rows & Hr & Hrl & Hrk).
    { intros x Hx. apply in_at in Hx as [i Hi]. rewrite Hsl. eapply Hlt; eauto. }
    rewrite Hr. cbn [bind].
    assert (Hrp : forall j p, at_ rows j p -> is_pdf p).
    { intros j p Hj. pose proof (at_lt _ _ _ _ Hj) as H. rewrite Hrl in H. destruct (lt_at _ _ _ H) as [x Hx].
      destruct (Hrk _ _ Hx) as (p' & Hp' & Hm). rewrite (at_fun _ _ _ _ _ Hj Hp'). eapply Hsd; eauto. }
    destruct (@mc_rows_pdf rows v Hrp Hv) as (ts & Hts & Htl & Htk). rewrite Hts. cbn [bind]. rewrite Hn.
    destruct (dur_iter_ok _ Hd) as (it & Hit & Hitk). rewrite Hit. cbn [bind]. eexists. split; [reflexivity|].
    cbn [s_chain s_left s_dur]. split; [|split].
    - split; [exact Hok|]. split; [exact Hitk|]. cbn [s_left s_chain]. rewrite map_length. congruence.
    - rewrite map_length. congruence.
    - intros i x Hi. split; [apply Hsel; exact Hi|]. destruct (Hrk _ _ Hi) as (row & Hrow & Hs).
      destruct (Htk _ _ Hrow) as (e & He & Hes). exists row, e. split; [exact Hs|]. split; [exact Hes|].
      unfold at_. rewrite nth_error_map, He. reflexivity.
  Qed.

  (** The state drawn at the start lasts its sampled duration too. *)
  Lemma first_episode : forall tpms d n hist s0 i x e, tpms <> [] -> (forall t m, at_ tpms t m -> stochastic n m) ->
    dur_valid n (tables_of d) -> (forall j uv, at_ hist j uv -> unit_draws (fst uv) /\ unit_draws (snd uv)) ->
    semi_ok tpms d n 1 s0 -> at_ (c_states (s_chain s0)) i x -> at_ (s_left s0) i (Z.of_nat e - 1)%Z ->
    forall j, (j < Nat.max 1 e)%nat -> (j <= length hist)%nat ->
      exists sj l', semi_run (firstn j hist) s0 = Ok sj /\ at_ (c_states (s_chain sj)) i x /\
        at_ (s_left sj) i l' /\ (over l' = true <-> S j = Nat.max 1 e).
  Proof.
    intros tpms d n hist s0 i x e Hne Hst Hd Hu Hs0 Hx He j Hj Hjl.
    destruct (@semi_run_ok tpms d n (firstn j hist) 1 s0 Hne Hst Hd) as (sj & Hsj & Hokj & _); auto.
    { intros a uv Ha. eapply Hu, at_firstn, Ha. }
    destruct (Z_lt_le_dec (Z.of_nat e - 1) 0) as [Hneg|Hpos].
    - assert (e = 0)%nat as -> by lia. assert (j = 0)%nat as -> by lia. simpl in Hsj. injection Hsj as <-.
      do 2 eexists. split; [reflexivity|]. split; [exact Hx|]. split; [exact He|]. split; reflexivity.
    - destruct (@keeps_state tpms d n hist 1 s0 i x Hne Hst Hd Hu Hs0 Hx j (Z.of_nat e - 1)%Z sj He) as [Ha Hb]; auto; [lia|].
      do 2 eexists. split; [exact Hsj|]. split; [exact Ha|]. split; [exact Hb|]. unfold over. rewrite Z.ltb_lt. lia.
  Qed.

  (** The two together, from the constructor. *)
  Lemma semi_execution : forall n_hh n_st tpms (labels : list L) c0 d pdf sdurs check u v hist,
    tpms <> [] -> (forall t m, at_ tpms t m -> stochastic n_st m) -> length pdf = n_st -> is_pdf pdf ->
    dur_valid n_st (tables_of d) -> length sdurs = n_st -> (forall x row, at_ sdurs x row -> is_pdf row) ->
    unit_draws u -> unit_draws v -> (forall j uv, at_ hist j uv -> unit_draws (fst uv) /\ unit_draws (snd uv)) ->
    chain_init n_hh n_st tpms labels = Ok c0 ->
    exists s, semi_start c0 d pdf sdurs 0 check u v = Ok s /\
      (* every step succeeds and keeps the number of subjects *)
      (forall k, (k <= length hist)%nat -> exists sk, semi_run (firstn k hist) s = Ok sk /\
         length (s_left sk) = n_hh /\ length (c_states (s_chain sk)) = n_hh) /\
      (* the first episode *)
      (forall i x, at_ (c_states (s_chain s)) i x -> selects pdf (u i) x /\
        exists row e, at_ sdurs x row /\ selects row (v i) e /\
        forall j, (j < Nat.max 1 e)%nat -> (j <= length hist)%nat ->
          exists sj l', semi_run (firstn j hist) s = Ok sj /\ at_ (c_states (s_chain sj)) i x /\
            at_ (s_left sj) i l' /\ (over l' = true <-> S j = Nat.max 1 e)) /\
      (* every later episode *)
      (forall k uv sk i x l, at_ hist k uv -> semi_run (firstn k hist) s = Ok sk ->
        at_ (c_states (s_chain sk)) i x -> at_ (s_left sk) i l -> over l = true ->
        exists row x' drow e,
          row_at tpms (S k mod length tpms) x row /\ selects row (fst uv (rank over (s_left sk) i)) x' /\
          dur_row (tables_of d) (S k mod dur_length (tables_of d)) x x' drow /\
          selects drow (snd uv (rank over (s_left sk) i)) e /\
          forall j, (1 <= j <= Nat.max 1 e)%nat -> (k + j <= length hist)%nat ->
            exists sj l', semi_run (firstn (k + j) hist) s = Ok sj /\ at_ (c_states (s_chain sj)) i x' /\
              at_ (s_left sj) i l' /\ (over l' = true <-> j = Nat.max 1 e)).
  Proof.
    intros n_hh n_st tpms labels c0 d pdf sdurs check u v hist Hne Hst Hlen Hpdf Hd Hsl Hsd Hu Hv Hh Hinit.
    destruct (@semi_start_ok n_hh n_st tpms labels c0 d pdf sdurs check u v Hne Hst Hlen Hpdf Hd Hsl Hsd Hu Hv Hinit)
      as (s & Hs & Hok & Hl & Hall).
    exists s. split; [exact Hs|]. split; [|split].
    - intros k Hk. destruct (@semi_run_ok tpms d n_st (firstn k hist) 1 s Hne Hst Hd) as (sk & Hsk & (_ & _ & Hokl) & Hkl); auto.
      { intros j uv Hj. eapply Hh, at_firstn, Hj. }
      exists sk. split; [exact Hsk|]. split; [congruence|]. congruence.
    - intros i x Hi. destruct (Hall i x Hi) as (Hsel & row & e & Hrow & He & Hleft). split; [exact Hsel|].
      exists row, e. split; [exact Hrow|]. split; [exact He|]. intros j Hj Hjl.
      apply (@first_episode tpms d n_st hist s i x e Hne Hst Hd Hh Hok Hi Hleft j Hj Hjl).
    - intros k uv sk i x l Hk Hsk Hx Hleft Hov.
      apply (@episode tpms d n_st hist s k uv sk i x l Hne Hst Hd Hh Hok Hk Hsk Hx Hleft Hov).
  Qed.
End SemiProofs.
