(** * Proofs of the laws of the Markov chain simulators. *)

From Coq Require Import List ZArith QArith Bool Arith Lia Lqa.
From Verif Require Import Prelude PreludeFacts SpecBase SpecBaseFacts Sampling_Spec Sampling_Proofs Activity_Model Activity_Spec
  Activity_Proofs Law_Spec Law_Base.
Import ListNotations.

(** ** Independent pieces *)

Lemma piece_0 : forall d us, piece d 0 us = firstn d us.
Proof. intros. unfold piece. rewrite Nat.mul_0_r. reflexivity. Qed.

Lemma skipn_add : forall A a b (l : list A), skipn (a + b) l = skipn b (skipn a l).
Proof. induction a as [|a IH]; intros b l; [reflexivity|]. destruct l; cbn [skipn Nat.add]; [rewrite skipn_nil; reflexivity|apply IH]. Qed.

Lemma piece_S : forall d i us, piece d (S i) us = piece d i (skipn d us).
Proof. intros. unfold piece. rewrite Nat.mul_succ_r, Nat.add_comm, skipn_add. reflexivity. Qed.

Lemma prob_pieces : forall d m Ps ps, length Ps = m -> Forall2 (has_probability d) Ps ps ->
  has_probability (m * d) (fun us => forall i P, at_ Ps i P -> P (piece d i us)) (product ps).
Proof.
  intros d m Ps ps <- H. induction H as [|P p Ps ps HP H IH].
  - apply prob_always. intros us _ [|i] P E; discriminate.
  - cbn [length Nat.mul product]. eapply prob_ext; [exact (prob_both _ _ _ _ _ _ HP IH)| |reflexivity].
    intros us _. cbv beta. split.
    + intros [H1 H2] [|i] P' E.
      * injection E as <-. rewrite piece_0. exact H1.
      * rewrite piece_S. apply H2. exact E.
    + intros H1. split.
      * rewrite <- piece_0. apply (H1 0%nat). reflexivity.
      * intros i P' E. rewrite <- piece_S. apply (H1 (S i)). exact E.
Qed.

Lemma draws_piece : forall d m us i, draws (m * d) us -> (i < m)%nat -> draws d (piece d i us).
Proof.
  intros d m us i [H1 H2] Hi. unfold piece. split.
  - rewrite firstn_length, skipn_length. nia.
  - assert (Forall (fun u => 0 <= u /\ u < 1) (skipn (d * i) us)).
    { rewrite <- (firstn_skipn (d * i) us) in H2. apply Forall_app in H2. apply H2. }
    rewrite <- (firstn_skipn d (skipn (d * i) us)) in H. apply Forall_app in H. apply H.
Qed.

(** ** The states reached *)

Section Reach.
  Variables (tables : list (list (list Q))) (pdf : list Q) (n_st : nat).
  Hypothesis Hne : tables <> [].
  Hypothesis Hst : forall t m, at_ tables t m -> stochastic n_st m.
  Hypothesis Hl : length pdf = n_st.
  Hypothesis Hpdf : is_pdf pdf.

  Lemma table_at : forall t, exists m, at_ tables (t mod length tables) m /\ nth (t mod length tables) tables [] = m /\ stochastic n_st m.
  Proof.
    intros t. assert (t mod length tables < length tables)%nat.
    { apply Nat.mod_upper_bound. destruct tables; [congruence|discriminate]. }
    destruct (lt_at _ tables _ H) as [m Hm]. exists m. split; [exact Hm|]. split; [apply nth_error_nth; exact Hm|eauto].
  Qed.

  Definition jump (t s : nat) (us : list Q) (j : nat) : Prop :=
    exists u row, us = [u] /\ row_at tables (t mod length tables) s row /\ selects row u j.

  Lemma row_fun : forall t s r r', row_at tables t s r -> row_at tables t s r' -> r = r'.
  Proof.
    intros t s r r' (m & H1 & H2) (m' & H3 & H4). assert (m = m') by (eapply at_fun; eauto). subst. eapply at_fun; eauto.
  Qed.

  Lemma jump_fun : forall t s us j j', jump t s us j -> jump t s us j' -> j = j'.
  Proof.
    intros t s us j j' (u & row & -> & H1 & H2) (u' & row' & E & H3 & H4). injection E as <-.
    rewrite (row_fun _ _ _ _ H3 H1) in H4. destruct H1 as (m & Hm & Hr). destruct (Hst _ _ Hm) as [_ Hs].
    eapply selects_fun; [apply (Hs _ _ Hr)| |]; eassumption.
  Qed.

  Lemma prob_jump : forall t s j, (s < n_st)%nat ->
    has_probability 1 (fun us => jump t s us j) (entry (nth s (nth (t mod length tables) tables []) []) j).
  Proof.
    intros t s j Hs. destruct (table_at t) as (m & Hm & -> & Hlm & Hrows).
    rewrite <- Hlm in Hs. destruct (lt_at _ m s Hs) as [row Hr]. destruct (Hrows _ _ Hr) as [_ Hrow].
    rewrite (nth_error_nth _ _ _ Hr). eapply prob_ext; [exact (prob_selects row j Hrow)| |reflexivity].
    intros us _. cbv beta. split.
    - intros (u & -> & H). exists u, row. split; [reflexivity|]. split; [exists m; auto|exact H].
    - intros (u & row' & -> & H1 & H2). exists u. split; [reflexivity|].
      rewrite (row_fun _ _ _ row H1) in H2; [exact H2|exists m; auto].
  Qed.

  Fixpoint reach (n : nat) (us : list Q) (j : nat) : Prop :=
    match n with
    | O => exists u, us = [u] /\ selects pdf u j
    | S k => exists s, In s (seq 0 n_st) /\ reach k (firstn (S k) us) s /\ jump (S k) s (skipn (S k) us) j
    end.

  Lemma reach_fun : forall n us j j', reach n us j -> reach n us j' -> j = j'.
  Proof.
    induction n as [|n IH]; intros us j j' H H'.
    - destruct H as (u & -> & H1). destruct H' as (u' & E & H2). injection E as <-. eapply selects_fun; [apply Hpdf| |]; eassumption.
    - destruct H as (s & _ & H1 & H2). destruct H' as (s' & _ & H3 & H4). rewrite (IH _ _ _ H3 H1) in H4. eapply jump_fun; eassumption.
  Qed.

  Lemma distribution_length : forall n, length (distribution tables pdf n) = n_st.
  Proof. destruct n; [exact Hl|]. cbn [distribution]. rewrite map_length, seq_length. exact Hl. Qed.

  Lemma row_times_seq : forall v m j, length v = length m ->
    row_times v m j == total (map (fun s => entry v s * entry (nth s m []) j) (seq 0 (length v))).
  Proof.
    unfold row_times. induction v as [|x v IH]; intros [|r m] j H; try discriminate; [reflexivity|].
    cbn [length seq combine map]. rewrite !total_cons, IH by (cbn in H; lia). rewrite <- seq_shift, map_map. reflexivity.
  Qed.

  Lemma prob_reach : forall n j, has_probability (S n) (fun us => reach n us j) (entry (distribution tables pdf n) j).
  Proof.
    induction n as [|n IH]; intros j.
    - apply prob_selects. exact Hpdf.
    - destruct (Nat.lt_ge_cases j n_st) as [Hj|Hj].
      + replace (S (S n)) with (S n + 1)%nat by lia. eapply prob_ext.
        * apply (prob_then (S n) 1 nat (seq 0 n_st) (fun s us => reach n us s) (fun s us => jump (S n) s us j)
            (fun s => entry (distribution tables pdf n) s) (fun s => entry (nth s (nth (S n mod length tables) tables []) []) j)).
          -- apply seq_NoDup.
          -- intros s _. apply IH.
          -- intros s Hs. apply in_seq in Hs. apply prob_jump. lia.
          -- intros us x y _ _ _. apply reach_fun.
        * intros us _. reflexivity.
        * cbn [distribution].
          assert (E : at_ (map (row_times (distribution tables pdf n) (nth (S n mod length tables) tables [])) (seq 0 (length pdf))) j
             (row_times (distribution tables pdf n) (nth (S n mod length tables) tables []) j)).
          { unfold at_. rewrite nth_error_map, (nth_error_nth' _ 0%nat) by (rewrite seq_length; lia).
            rewrite seq_nth by lia. reflexivity. }
          rewrite (entry_at _ _ _ E). destruct (table_at (S n)) as (m & Hm & Em & Hlm & _). rewrite Em in *.
          rewrite row_times_seq; rewrite distribution_length; [reflexivity|auto].
      + rewrite entry_out by (rewrite distribution_length; exact Hj). apply prob_never.
        intros us _ (s & _ & _ & (u & row & _ & (m & Hm & Hr) & Hs & _)).
        destruct (Hst _ _ Hm) as [_ H]. destruct (H _ _ Hr) as [H1 _]. lia.
  Qed.

  Lemma total_entries : forall l, total (map (entry l) (seq 0 (length l))) == total l.
  Proof.
    induction l as [|x l IH]; [reflexivity|]. cbn [length seq map]. rewrite !total_cons, <- seq_shift, map_map.
    change (fun x0 => entry (x :: l) (S x0)) with (entry l). rewrite IH. reflexivity.
  Qed.

  Lemma total_swap : forall A B (f : A -> B -> Q) la lb,
    total (map (fun a => total (map (f a) lb)) la) == total (map (fun b => total (map (fun a => f a b) la)) lb).
  Proof.
    induction la as [|a la IH]; intros lb.
    - cbn. symmetry. apply total_zero. reflexivity.
    - cbn [map]. rewrite total_cons, IH. clear IH. induction lb as [|b lb IH]; [reflexivity|]. cbn [map].
      rewrite !total_cons, <- IH. ring.
  Qed.

  Lemma distribution_pdf : forall n, is_pdf (distribution tables pdf n).
  Proof.
    intros n. split.
    - intros j x Hx. rewrite <- (entry_at _ _ _ Hx). apply (prob_bounds _ _ _ (prob_reach n j)).
    - induction n as [|n IH]; [apply Hpdf|]. cbn [distribution].
      destruct (table_at (S n)) as (m & Hm & Em & Hlm & Hrows). rewrite Em.
      rewrite (total_map_ext _ _ (fun j => total (map (fun s => entry (distribution tables pdf n) s * entry (nth s m []) j) (seq 0 n_st)))).
      + rewrite total_swap. rewrite (total_map_ext _ _ (entry (distribution tables pdf n))).
        * rewrite <- IH. rewrite <- (total_entries (distribution tables pdf n)). rewrite distribution_length. reflexivity.
        * intros s Hs. apply in_seq in Hs. rewrite total_scale.
          assert (Hs' : (s < length m)%nat) by lia. destruct (lt_at _ m s Hs') as [row Hr]. destruct (Hrows _ _ Hr) as [H1 [_ H2]].
          rewrite (nth_error_nth _ _ _ Hr). rewrite Hl, <- H1, (total_entries row), H2. ring.
      + intros j _. rewrite row_times_seq; rewrite distribution_length; [reflexivity|auto].
  Qed.

  (** ** Paths *)

  Definition follows (t : nat) (states : list nat) (us : list Q) : Prop :=
    forall k s s' u, at_ states k s -> at_ states (S k) s' -> at_ us k u ->
      exists row, row_at tables ((t + k) mod length tables) s row /\ selects row u s'.

  Lemma follows_cons : forall t s s' path u us,
    follows t (s :: s' :: path) (u :: us) <-> jump t s [u] s' /\ follows (S t) (s' :: path) us.
  Proof.
    intros t s s' path u us. split.
    - intros H. split.
      + destruct (H 0%nat s s' u eq_refl eq_refl eq_refl) as (row & H1 & H2). rewrite Nat.add_0_r in H1. exists u, row. auto.
      + intros k x x' v H1 H2 H3. replace (S t + k)%nat with (t + S k)%nat by lia. apply (H (S k)); assumption.
    - intros [(u' & row & E & H1 & H2) H] [|k] x x' v Hx Hx' Hv.
      + injection Hx as <-. injection Hx' as <-. injection Hv as <-. injection E as <-. rewrite Nat.add_0_r. exists row. auto.
      + replace (t + S k)%nat with (S t + k)%nat by lia. apply H; assumption.
  Qed.

  Lemma prob_follows : forall path t s, (s < n_st)%nat -> (forall k x, at_ path k x -> (x < n_st)%nat) ->
    has_probability (length path) (fun us => follows t (s :: path) us) (path_probability tables t s path).
  Proof.
    induction path as [|s' path IH]; intros t s Hs Hp.
    - apply prob_always. intros us _ k x x' v _ H. destruct k; discriminate.
    - cbn [length path_probability]. change (S (length path)) with (1 + length path)%nat. eapply prob_ext.
      + apply prob_both; [apply (prob_jump t s s' Hs)|].
        apply (IH (S t) s'); [exact (Hp 0%nat s' eq_refl)|]. intros k x Hx. exact (Hp (S k) x Hx).
      + intros us [Hlen _]. destruct us as [|u us]; [discriminate|]. cbv beta. cbn [firstn skipn]. rewrite follows_cons. reflexivity.
      + reflexivity.
  Qed.

  Definition walks (states : list nat) (us : list Q) : Prop :=
    exists s0 path u0 us', states = s0 :: path /\ us = u0 :: us' /\ selects pdf u0 s0 /\ follows 1 states us'.

  Lemma prob_walks : forall s0 path,
    has_probability (S (length path)) (walks (s0 :: path)) (entry pdf s0 * path_probability tables 1 s0 path).
  Proof.
    intros s0 path.
    destruct (Forall_dec (fun x => (x < n_st)%nat) (fun x => lt_dec x n_st) (s0 :: path)) as [F|F].
    - inversion_clear F as [|? ? F1 F2]. change (S (length path)) with (1 + length path)%nat. eapply prob_ext.
      + apply prob_both; [apply (prob_selects pdf s0 Hpdf)|]. apply (prob_follows path 1 s0); [exact F1|].
        intros k x Hx. rewrite Forall_forall in F2. apply F2. eapply nth_error_In; eauto.
      + intros us [Hlen _]. destruct us as [|u us]; [discriminate|]. cbv beta. cbn [firstn skipn]. split.
        * intros [(v & E & H1) H2]. injection E as <-. exists s0, path, u, us. auto.
        * intros (x & p & v & us' & E1 & E2 & H1 & H2). injection E1 as <- <-. injection E2 as <- <-. split; [exists u; auto|exact H2].
      + reflexivity.
    - assert (Hz : entry pdf s0 * path_probability tables 1 s0 path == 0).
      { destruct (Nat.lt_ge_cases s0 n_st) as [H0|H0]; [|rewrite entry_out by lia; ring].
        assert (F' : ~ Forall (fun x => (x < n_st)%nat) path) by (intros H; apply F; constructor; assumption).
        clear F. assert (G : forall t s, path_probability tables t s path == 0); [|rewrite G; ring].
        clear - Hst Hne F'. induction path as [|x path IH]; intros t s; [destruct F'; constructor|]. cbn [path_probability].
        destruct (Nat.lt_ge_cases x n_st) as [Hx|Hx].
        - rewrite IH; [ring|]. intros H. apply F'. constructor; assumption.
        - rewrite entry_out; [ring|]. destruct (table_at t) as (m & Hm & -> & Hlm & Hr).
          destruct (Nat.lt_ge_cases s (length m)) as [Hs|Hs]; [|rewrite nth_overflow by assumption; cbn; lia].
          destruct (lt_at _ m s Hs) as [row Hrow]. rewrite (nth_error_nth _ _ _ Hrow). destruct (Hr _ _ Hrow) as [E _]. lia. }
      eapply prob_ext; [apply (prob_never (S (length path)) (walks (s0 :: path)))|reflexivity|symmetry; exact Hz].
      intros us [Hlen _] (x & p & v & us' & E1 & E2 & H1 & H2). injection E1 as <- <-. subst us. apply F. constructor; [destruct H1; lia|].
      apply Forall_forall. intros y Hy. apply in_at in Hy as [k Hk].
      assert (Hk' := at_lt _ _ _ _ Hk). cbn in Hlen.
      assert (Ks : (k < length (s0 :: path))%nat) by (cbn; lia). assert (Ku : (k < length us')%nat) by lia.
      destruct (lt_at _ (s0 :: path) k Ks) as [s Hs]. destruct (lt_at _ us' k Ku) as [u Hu].
      destruct (H2 k s y u Hs Hk Hu) as (row & (m & Hm & Hr) & Hsel & _).
      destruct (Hst _ _ Hm) as [_ Hrows]. destruct (Hrows _ _ Hr) as [E _]. lia.
  Qed.
End Reach.

(** ** The simulator *)

Section Simulator.
  Variables (L : Type) (n_hh n_st : nat) (tpms : list (list (list Q))) (labels : list L) (c0 : chain0 L) (pdf : list Q) (check : bool).
  Hypothesis Hne : tpms <> [].
  Hypothesis Hst : forall t m, at_ tpms t m -> stochastic n_st m.
  Hypothesis Hl : length pdf = n_st.
  Hypothesis Hpdf : is_pdf pdf.
  Hypothesis Hc : chain_init n_hh n_st tpms labels = Ok c0.

  (** The draws read by household [i]. *)
  Definition column (i : nat) (u0 : nat -> Q) (hist : list (nat -> Q)) : list Q := map (fun u => u i) (u0 :: hist).

  Definition all_unit (u0 : nat -> Q) (hist : list (nat -> Q)) : Prop :=
    unit_draws u0 /\ forall k u, at_ hist k u -> unit_draws u.

  Lemma column_snoc : forall i u0 hist u, column i u0 (hist ++ [u]) = column i u0 hist ++ [u i].
  Proof. intros. unfold column. cbn [map]. rewrite map_app. reflexivity. Qed.

  Lemma at_firstn_snoc : forall A (l : list A) k x, at_ l k x -> firstn (S k) l = firstn k l ++ [x].
  Proof.
    intros A l k x. revert l. induction k as [|k IH]; intros [|y l] H; try discriminate.
    - injection H as <-. reflexivity.
    - cbn [firstn List.app]. f_equal. change (firstn (S k) l = firstn k l ++ [x]). apply IH. exact H.
  Qed.

  Lemma run_states : forall u0 hist, all_unit u0 hist -> exists c, chain_start c0 pdf 0 check u0 = Ok c /\
    forall k, (k <= length hist)%nat -> exists ck, chain_run (firstn k hist) c = Ok ck /\ length (c_states ck) = n_hh /\
      forall i j, at_ (c_states ck) i j -> reach tpms pdf n_st k (column i u0 (firstn k hist)) j.
  Proof.
    intros u0 hist [Hu0 Hh]. destruct (chain_execution n_hh labels check Hne Hst Hl Hpdf Hu0 Hh Hc)
      as (c & E & H1 & H2 & H3). exists c. split; [exact E|]. induction k as [|k IH]; intros Hk.
    - destruct (H2 0%nat Hk) as (ck & E1 & E2 & _). exists ck. split; [exact E1|]. split; [exact E2|].
      intros i j Hj. cbn in E1. injection E1 as <-. exists (u0 i). split; [reflexivity|]. apply H1. exact Hj.
    - destruct IH as (ck & E1 & E2 & IH); [lia|]. destruct (H2 (S k) Hk) as (ck1 & E3 & E4 & _).
      exists ck1. split; [exact E3|]. split; [exact E4|]. intros i j Hj.
      destruct (lt_at _ hist k Hk) as [u Hu].
      assert (Hi : (i < length (c_states ck))%nat) by (rewrite E2, <- E4; eapply at_lt; eauto).
      destruct (lt_at _ _ _ Hi) as [s Hs]. destruct (H3 k u ck ck1 Hu E1 E3 i s Hs) as (row & s' & R1 & R2 & R3 & _).
      assert (s' = j) by (eapply at_fun; eauto). subst s'. rewrite (at_firstn_snoc _ _ _ _ Hu), column_snoc.
      assert (Lc : length (column i u0 (firstn k hist)) = S k).
      { unfold column. cbn [map length]. rewrite map_length, firstn_length. lia. }
      cbn [reach]. exists s. rewrite firstn_app, Lc, Nat.sub_diag, firstn_O, app_nil_r, firstn_all2 by lia.
      rewrite skipn_app, Lc, Nat.sub_diag, skipn_O, (skipn_all2 (column i u0 (firstn k hist))) by lia.
      split; [|split; [apply IH; exact Hs|exists (u i), row; auto]].
      destruct R1 as (m & Hm & Hr). destruct (Hst _ _ Hm) as [Hlm _]. apply in_seq. apply at_lt in Hr. lia.
  Qed.

  (** The state of household [i] is [j] exactly when its own draws lead there. *)
  Lemma run_reach : forall u0 hist i, all_unit u0 hist -> (i < n_hh)%nat -> exists c cn,
    chain_start c0 pdf 0 check u0 = Ok c /\ chain_run hist c = Ok cn /\ length (c_states cn) = n_hh /\
    forall j, at_ (c_states cn) i j <-> reach tpms pdf n_st (length hist) (column i u0 hist) j.
  Proof.
    intros u0 hist i Hu Hi. destruct (run_states u0 hist Hu) as (c & E & H). destruct (H (length hist) (le_n _)) as (cn & E1 & E2 & H1).
    rewrite firstn_all in *. exists c, cn. repeat (split; [assumption|]). intros j. split; [apply H1|]. intros Hj.
    rewrite <- E2 in Hi. destruct (lt_at _ _ _ Hi) as [s Hs]. rewrite (reach_fun tpms pdf n_st Hst Hl Hpdf _ _ _ _ Hj (H1 _ _ Hs)). exact Hs.
  Qed.

  Definition const_draws (us : list Q) : list (nat -> Q) := map (fun u _ => u) us.

  Lemma const_unit : forall us, Forall (fun u => 0 <= u /\ u < 1) us -> forall k u, at_ (const_draws us) k u -> unit_draws u.
  Proof.
    intros us H k u Hu. apply nth_error_In, in_map_iff in Hu as (v & <- & Hv). intros _. rewrite Forall_forall in H. auto.
  Qed.

  Lemma const_column : forall i us, map (fun u : nat -> Q => u i) (const_draws us) = us.
  Proof. intros i us. unfold const_draws. rewrite map_map, map_id. reflexivity. Qed.

  Lemma law_one : forall i n j, (i < n_hh)%nat ->
    has_probability (S n) (fun us => forall u0 hist, all_unit u0 hist -> column i u0 hist = us ->
      exists c cn, chain_start c0 pdf 0 check u0 = Ok c /\ chain_run hist c = Ok cn /\ at_ (c_states cn) i j)
    (entry (distribution tpms pdf n) j).
  Proof.
    intros i n j Hi. eapply prob_ext; [exact (prob_reach tpms pdf n_st Hne Hst Hl Hpdf n j)| |reflexivity].
    intros us [Hlen Hus]. cbv beta. split.
    - intros Hr u0 hist Hu E. destruct (run_reach u0 hist i Hu Hi) as (c & cn & E1 & E2 & _ & H).
      exists c, cn. split; [exact E1|]. split; [exact E2|]. apply H. rewrite E.
      assert (length hist = n) by (rewrite <- E in Hlen; unfold column in Hlen; cbn in Hlen; rewrite map_length in Hlen; lia).
      rewrite H0. exact Hr.
    - intros H. destruct us as [|u us]; [discriminate|]. inversion_clear Hus as [|? ? Hu Hus'].
      assert (A : all_unit (fun _ => u) (const_draws us)) by (split; [intros _; exact Hu|apply const_unit; exact Hus']).
      destruct (H _ _ A) as (c & cn & E1 & E2 & Hj); [unfold column; cbn [map]; rewrite const_column; reflexivity|].
      destruct (run_reach _ _ i A Hi) as (c' & cn' & E3 & E4 & _ & Hr).
      rewrite E1 in E3. injection E3 as <-. rewrite E2 in E4. injection E4 as <-. apply Hr in Hj.
      unfold column in Hj. cbn [map] in Hj. rewrite const_column in Hj. unfold const_draws in Hj. rewrite map_length in Hj.
      cbn in Hlen. replace n with (length us) by lia. exact Hj.
  Qed.

  (** Draws of all the households from their concatenation. *)
  Definition joint_draw (d : nat) (us : list Q) (k i : nat) : Q := nth k (piece d i us) 0.

  Lemma joint_unit : forall d us k, Forall (fun u => 0 <= u /\ u < 1) us -> unit_draws (joint_draw d us k).
  Proof.
    intros d us k H i. unfold joint_draw. destruct (Nat.lt_ge_cases k (length (piece d i us))) as [Hk|Hk].
    - rewrite Forall_forall in H. apply H. assert (Hin : In (nth k (piece d i us) 0) (piece d i us)) by (apply nth_In; exact Hk).
      revert Hin. generalize (nth k (piece d i us) 0). intros x Hin. unfold piece in Hin.
      rewrite <- (firstn_skipn (d * i) us). apply in_or_app. right.
      rewrite <- (firstn_skipn d (skipn (d * i) us)). apply in_or_app. left. exact Hin.
    - rewrite nth_overflow by assumption. lra.
  Qed.

  Lemma map_nth_seq : forall (l : list Q) d, map (fun k => nth k l d) (seq 0 (length l)) = l.
  Proof. induction l as [|x l IH]; intros d; [reflexivity|]. cbn [length seq map]. f_equal. rewrite <- seq_shift, map_map. apply IH. Qed.

  Lemma joint_column : forall n us i, draws (n_hh * S n) us -> (i < n_hh)%nat ->
    column i (joint_draw (S n) us 0) (map (joint_draw (S n) us) (seq 1 n)) = piece (S n) i us.
  Proof.
    intros n us i H Hi. destruct (draws_piece (S n) n_hh us i H Hi) as [Hlen _].
    transitivity (map (fun k => nth k (piece (S n) i us) 0) (seq 0 (length (piece (S n) i us)))); [|apply map_nth_seq].
    rewrite Hlen. unfold column. cbn [seq map]. f_equal. rewrite map_map. reflexivity.
  Qed.

  Definition runs_to (u0 : nat -> Q) (hist : list (nat -> Q)) (states : list nat) : Prop :=
    exists c cn, chain_start c0 pdf 0 check u0 = Ok c /\ chain_run hist c = Ok cn /\ c_states cn = states.

  Lemma same_entries : forall A (l l' : list A), (forall i, nth_error l i = nth_error l' i) -> l = l'.
  Proof.
    induction l as [|x l IH]; intros [|y l'] H; [reflexivity|specialize (H 0%nat); discriminate|specialize (H 0%nat); discriminate|].
    assert (E := H 0%nat). cbn in E. injection E as <-. f_equal. apply IH. intros i. exact (H (S i)).
  Qed.

  Lemma run_joint : forall u0 hist js, all_unit u0 hist -> length js = n_hh ->
    (runs_to u0 hist js <-> forall i j, at_ js i j -> reach tpms pdf n_st (length hist) (column i u0 hist) j).
  Proof.
    intros u0 hist js Hu Hjs. destruct (run_states u0 hist Hu) as (c & E & H). destruct (H (length hist) (le_n _)) as (cn & E1 & E2 & H1).
    rewrite firstn_all in *. split.
    - intros (c' & cn' & E3 & E4 & <-). rewrite E in E3. injection E3 as <-. rewrite E1 in E4. injection E4 as <-. exact H1.
    - intros Hr. exists c, cn. split; [exact E|]. split; [exact E1|]. apply same_entries. intros i.
      destruct (Nat.lt_ge_cases i n_hh) as [Hi|Hi].
      + assert (Hi1 : (i < length (c_states cn))%nat) by lia. assert (Hi2 : (i < length js)%nat) by lia.
        destruct (lt_at _ _ _ Hi1) as [s Hs]. destruct (lt_at _ _ _ Hi2) as [j Hj].
        rewrite (reach_fun tpms pdf n_st Hst Hl Hpdf _ _ _ _ (Hr _ _ Hj) (H1 _ _ Hs)) in Hj. rewrite Hs, Hj. reflexivity.
      + rewrite (proj2 (nth_error_None _ _)) by lia. symmetry. apply nth_error_None. lia.
  Qed.

  Lemma law_joint : forall n js, length js = n_hh ->
    has_probability (n_hh * S n) (fun us => forall u0 hist, all_unit u0 hist ->
      (forall i, (i < n_hh)%nat -> column i u0 hist = piece (S n) i us) -> runs_to u0 hist js)
    (product (map (entry (distribution tpms pdf n)) js)).
  Proof.
    intros n js Hjs. assert (Hpos : (0 < n_hh)%nat).
    { unfold chain_init in Hc. destruct (Nat.eqb_spec n_hh 0); [discriminate|lia]. }
    eapply prob_ext.
    - apply (prob_pieces (S n) n_hh (map (fun j us => reach tpms pdf n_st n us j) js) (map (entry (distribution tpms pdf n)) js));
        [rewrite map_length; exact Hjs|]. clear Hjs. induction js as [|j js IH]; [constructor|]. cbn [map]. constructor; [|exact IH].
      apply (prob_reach tpms pdf n_st Hne Hst Hl Hpdf).
    - intros us Hus.
      assert (Hlen : forall u0 hist, column 0 u0 hist = piece (S n) 0 us -> length hist = n).
      { intros u0 hist E. destruct (draws_piece (S n) n_hh us 0 Hus Hpos) as [Hlen _]. rewrite <- E in Hlen.
        unfold column in Hlen. cbn in Hlen. rewrite map_length in Hlen. lia. }
      split.
      + intros Hr u0 hist Hu Hcol. apply run_joint; [exact Hu|exact Hjs|]. intros i j Hj.
        assert (Hi : (i < n_hh)%nat) by (rewrite <- Hjs; eapply at_lt; eauto).
        rewrite (Hcol i Hi), (Hlen u0 hist (Hcol 0%nat Hpos)). apply (Hr i (fun us => reach tpms pdf n_st n us j)).
        unfold at_. rewrite nth_error_map, Hj. reflexivity.
      + intros H i P HP. unfold at_ in HP. rewrite nth_error_map in HP. destruct (nth_error js i) as [j|] eqn:Hj; [|discriminate].
        injection HP as <-. assert (Hi : (i < n_hh)%nat) by (rewrite <- Hjs; eapply at_lt; eauto).
        assert (A : all_unit (joint_draw (S n) us 0) (map (joint_draw (S n) us) (seq 1 n))).
        { destruct Hus as [_ Hus]. split; [apply joint_unit; exact Hus|]. intros k u Hu. apply nth_error_In, in_map_iff in Hu as (k' & <- & _).
          apply joint_unit; exact Hus. }
        specialize (H _ _ A (fun i Hi => joint_column n us i Hus Hi)). assert (H' := proj1 (run_joint _ _ _ A Hjs) H i j Hj). clear H. rename H' into H. rewrite (joint_column n us i Hus Hi), map_length, seq_length in H. exact H.
    - reflexivity.
  Qed.

  (** ** Paths of the households *)

  Definition visits (u0 : nat -> Q) (hist : list (nat -> Q)) (i : nat) (states : list nat) : Prop :=
    exists c, chain_start c0 pdf 0 check u0 = Ok c /\
      forall k s, at_ states k s -> exists ck, chain_run (firstn k hist) c = Ok ck /\ at_ (c_states ck) i s.

  Lemma run_visits : forall u0 hist i s0 path, all_unit u0 hist -> (i < n_hh)%nat -> length path = length hist ->
    (visits u0 hist i (s0 :: path) <-> walks tpms pdf (s0 :: path) (column i u0 hist)).
  Proof.
    intros u0 hist i s0 path [Hu0 Hh] Hi Hlen.
    destruct (chain_execution n_hh labels check Hne Hst Hl Hpdf Hu0 Hh Hc) as (c & E & H1 & H2 & H3).
    split.
    - intros (c' & E' & H). rewrite E in E'. injection E' as <-.
      exists s0, path, (u0 i), (map (fun u => u i) hist). repeat (split; [reflexivity|]). split.
      + destruct (H 0%nat s0 eq_refl) as (ck & E1 & Hs). cbn in E1. injection E1 as <-. apply H1. exact Hs.
      + intros k s s' u Hs Hs' Hu. unfold at_ in Hu. rewrite nth_error_map in Hu. destruct (nth_error hist k) as [f|] eqn:Hf; [|discriminate].
        injection Hu as <-. destruct (H k s Hs) as (ck & E1 & Hk). destruct (H (S k) s' Hs') as (ck1 & E2 & Hk1).
        destruct (H3 k f ck ck1 Hf E1 E2 i s Hk) as (row & s2 & R1 & R2 & R3 & _). exists row. split; [exact R1|].
        rewrite (at_fun _ _ _ _ _ Hk1 R2). exact R3.
    - intros (x & p & v & us' & E1 & E2 & Hs0 & Hf). injection E1 as <- <-. unfold column in E2. cbn [map] in E2. injection E2 as <- <-.
      exists c. split; [exact E|]. induction k as [|k IH]; intros s Hs.
      + injection Hs as <-. destruct (H2 0%nat (Nat.le_0_l _)) as (ck & E1 & E2 & _). exists ck. split; [exact E1|].
        cbn in E1. injection E1 as <-. rewrite <- E2 in Hi. destruct (lt_at _ _ _ Hi) as [s Hs].
        rewrite (selects_fun pdf (u0 i) s0 s (proj1 Hpdf) Hs0 (H1 _ _ Hs)). exact Hs.
      + assert (Hk : (k < length path)%nat) by (apply at_lt in Hs; cbn in Hs; lia).
        assert (Hk1 : (k < length (s0 :: path))%nat) by (cbn; lia). destruct (lt_at _ _ _ Hk1) as [s1 Hs1].
        destruct (IH s1 Hs1) as (ck & E1 & Hks). rewrite Hlen in Hk. destruct (lt_at _ _ _ Hk) as [u Hu].
        destruct (H2 (S k) Hk) as (ck1 & E2 & E3 & _). exists ck1. split; [exact E2|].
        destruct (H3 k u ck ck1 Hu E1 E2 i s1 Hks) as (row & s2 & R1 & R2 & R3 & _).
        destruct (Hf k s1 s (u i) Hs1 Hs) as (row' & R1' & R3'); [unfold at_; rewrite nth_error_map, Hu; reflexivity|].
        assert (Er : row' = row) by (eapply row_fun; eassumption). rewrite Er in R3'. destruct R1 as (m & Hm & Hr). destruct (Hst _ _ Hm) as [_ Hrows].
        destruct (Hrows _ _ Hr) as [_ [Hn _]]. rewrite (selects_fun row (u i) s s2 Hn R3' R3). exact R2.
  Qed.

  Lemma law_path : forall i s0 path, (i < n_hh)%nat ->
    has_probability (S (length path)) (fun us => forall u0 hist, all_unit u0 hist -> column i u0 hist = us -> visits u0 hist i (s0 :: path))
    (entry pdf s0 * path_probability tpms 1 s0 path).
  Proof.
    intros i s0 path Hi. eapply prob_ext; [exact (prob_walks tpms pdf n_st Hne Hst Hl Hpdf s0 path)| |reflexivity].
    intros us [Hlen Hus]. split.
    - intros Hw u0 hist Hu E. apply run_visits; [exact Hu|exact Hi| |rewrite E; exact Hw].
      rewrite <- E in Hlen. unfold column in Hlen. cbn in Hlen. rewrite map_length in Hlen. lia.
    - intros H. destruct us as [|u us]; [discriminate|]. inversion_clear Hus as [|? ? Hu Hus'].
      assert (A : all_unit (fun _ => u) (const_draws us)) by (split; [intros _; exact Hu|apply const_unit; exact Hus']).
      assert (E : column i (fun _ => u) (const_draws us) = u :: us) by (unfold column; cbn [map]; rewrite const_column; reflexivity).
      specialize (H _ _ A E). apply (proj1 (run_visits _ _ i s0 path A Hi (eq_sym (eq_trans (map_length _ us) (f_equal pred Hlen))))) in H.
      rewrite E in H. exact H.
  Qed.

  Lemma law_paths_joint : forall n paths, length paths = n_hh -> (forall i path, at_ paths i path -> length path = S n) ->
    has_probability (n_hh * S n) (fun us => forall u0 hist, all_unit u0 hist ->
      (forall i, (i < n_hh)%nat -> column i u0 hist = piece (S n) i us) -> forall i path, at_ paths i path -> visits u0 hist i path)
    (product (map (fun path => match path with [] => 1 | s0 :: rest => entry pdf s0 * path_probability tpms 1 s0 rest end) paths)).
  Proof.
    intros n paths Hp Hlens. assert (Hpos : (0 < n_hh)%nat).
    { unfold chain_init in Hc. destruct (Nat.eqb_spec n_hh 0); [discriminate|lia]. }
    eapply prob_ext.
    - apply (prob_pieces (S n) n_hh (map (fun path us => walks tpms pdf path us) paths)
        (map (fun path => match path with [] => 1 | s0 :: rest => entry pdf s0 * path_probability tpms 1 s0 rest end) paths));
        [rewrite map_length; exact Hp|]. clear Hp. induction paths as [|path paths IH]; [constructor|]. cbn [map]. constructor.
      + assert (E := Hlens 0%nat path eq_refl). destruct path as [|s0 rest]; [discriminate|].
        replace (S n) with (S (length rest)) by (cbn in E; lia). apply (prob_walks tpms pdf n_st Hne Hst Hl Hpdf).
      + apply IH. intros i p Hi. apply (Hlens (S i) p Hi).
    - intros us Hus. split.
      + intros Hw u0 hist Hu Hcol i path Hi. assert (Hi' : (i < n_hh)%nat) by (rewrite <- Hp; eapply at_lt; eauto).
        assert (E := Hlens i path Hi). destruct path as [|s0 rest]; [discriminate|].
        assert (Hlen : length hist = n).
        { destruct (draws_piece (S n) n_hh us i Hus Hi') as [Hlen _]. rewrite <- (Hcol i Hi') in Hlen.
          unfold column in Hlen. cbn in Hlen. rewrite map_length in Hlen. lia. }
        apply run_visits; [exact Hu|exact Hi'|cbn in E; lia|]. rewrite (Hcol i Hi'). apply (Hw i (walks tpms pdf (s0 :: rest))).
        unfold at_. rewrite nth_error_map, Hi. reflexivity.
      + intros H i P HP. unfold at_ in HP. rewrite nth_error_map in HP. destruct (nth_error paths i) as [path|] eqn:Hj; [|discriminate].
        injection HP as <-. assert (Hi : (i < n_hh)%nat) by (rewrite <- Hp; eapply at_lt; eauto).
        assert (A : all_unit (joint_draw (S n) us 0) (map (joint_draw (S n) us) (seq 1 n))).
        { destruct Hus as [_ Hus]. split; [apply joint_unit; exact Hus|]. intros k u Hu. apply nth_error_In, in_map_iff in Hu as (k' & <- & _).
          apply joint_unit; exact Hus. }
        specialize (H _ _ A (fun i Hi => joint_column n us i Hus Hi) i path Hj).
        assert (E := Hlens i path Hj). destruct path as [|s0 rest]; [discriminate|].
        apply (proj1 (run_visits _ _ i s0 rest A Hi (eq_trans (f_equal pred E) (eq_sym (eq_trans (map_length _ (seq 1 n)) (seq_length n 1)))))) in H.
        rewrite (joint_column n us i Hus Hi) in H. exact H.
    - reflexivity.
  Qed.
End Simulator.
