(** * Proofs about the data of the household models of the German survey. *)

From Coq Require Import String List ZArith QArith Bool Arith Lia Lqa Sorted.
From Verif Require Import Prelude PreludeFacts SpecBase SpecBaseFacts Sparse_Model Sparse_Spec Parse_Model Parse_Spec Parse_Proofs Parse_DurProofs Parse_TpmProofs Parse_SemiProofs Activity_LabelProofs Appliance_Model StateMetric_Model
  Matrix_Proofs GTou_Model GTou_Spec GTou_Proofs GTou_LabelProofs GTou_HouseProofs GTou_SparseProofs GTou_SparseTpmProofs GTou_StartProofs.
Import ListNotations.
Local Open Scope Z_scope.

Lemma convert_table : forall n w (g : list (list Z)), sized n w g -> (0 < n)%nat -> (0 < w)%nat ->
  exists st labels, convert_states Z.compare Z.compare Some g = Ok (st, labels) /\ sized n w st /\ NoDup labels /\
    (forall x, In x labels <-> exists p i, diary g p i x) /\ (forall p i x, diary g p i x -> exists k, diary st p i k /\ at_ labels k x) /\
    (forall p i k, diary st p i k -> (k < length labels)%nat) /\ (exists p i k, diary st p i k /\ length labels = S k).
Proof.
  intros n w g S Hn Hw. destruct (convert_map _ _ _ _ Z_order Z_order (@Some Z) (fun x => x) g (sized_some _ _ _ _ S Hn Hw)) as (h & labels & E & N & I & V); [auto|].
  assert (V' : forall p i x, diary g p i x -> at_ labels (h x) x). { intros p i x Hx. destruct (proj2 (diary_in _ g x)) as (r & Hr & Hi); [eauto|]. apply (V r x Hr Hi). }
  assert (I' : forall x, In x labels <-> exists p i, diary g p i x). { intro x. rewrite I. split; [intros (r & y & Hr & Hy & ->); apply diary_in; eauto|intro H; apply diary_in in H; destruct H as (r & Hr & Hx); eauto]. }
  exists (map (map h) g), labels. split; [exact E|]. split; [apply sized_map; exact S|]. split; [exact N|]. split; [exact I'|]. split; [|split].
  - intros p i x Hx. exists (h x). split; [apply diary_map; eauto|eapply V'; eauto].
  - intros p i k Hk. apply diary_map in Hk. destruct Hk as (x & Hx & ->). eapply at_lt, V'; eauto.
  - destruct (length labels) as [|m] eqn:L.
    + exfalso. destruct (sized_diary _ _ _ _ 0 0 S Hn Hw) as (x & Hx). assert (X := at_lt _ _ _ _ (V' _ _ _ Hx)). lia.
    + destruct (lt_at _ labels m) as (x & Hx); [lia|]. destruct (proj1 (I' x) (at_in _ _ _ _ Hx)) as (p & i & D). exists p, i, (h x). split; [apply diary_map; eauto|]. f_equal.
      apply (proj1 (NoDup_nth_error labels) N); [lia|]. unfold at_ in Hx. rewrite Hx. symmetry. eapply V'; eauto.
Qed.

Lemma keys_some : forall n hh ds (keys : list (Z * Z)), length hh = n -> length ds = n -> (0 < n)%nat -> (forall d h, In (d, h) keys <-> exists p, at_ ds p d /\ at_ hh p h) -> (0 < length keys)%nat.
Proof.
  intros n hh ds keys L1 L2 Hn H. destruct (lt_at _ hh 0) as (h & Hh); [lia|]. destruct (lt_at _ ds 0) as (d & Hd); [lia|]. assert (I : In (d, h) keys) by (apply H; eauto). destruct keys; [destruct I|cbn; lia].
Qed.

Lemma four_counts : forall n w o a hh ds h d i, sized n w o -> sized n w a -> (i < w)%nat ->
  counts n (fun p => belongs hh ds h d p /\ diary o p i true) (hh_home o hh ds h d i) /\ counts n (fun p => belongs hh ds h d p /\ diary a p i 1) (hh_awake a hh ds h d i).
Proof.
  intros n w o a hh ds h d i So Sa Hi. unfold hh_home, hh_awake. rewrite (proj1 So), (proj1 Sa). split; apply counts_filter; intros p Hp; rewrite andb_true_iff, member_belongs.
  - destruct (sized_diary _ _ _ _ p i So Hp Hi) as (b & Hb). rewrite (cell_diary _ false _ _ _ _ Hb). split; intros (B & V); (split; [exact B|]); [rewrite <- V; exact Hb|eapply diary_fun; eauto].
  - rewrite Z.eqb_eq. destruct (sized_diary _ _ _ _ p i Sa Hp Hi) as (b & Hb). rewrite (cell_diary _ 0 _ _ _ _ Hb). split; intros (B & V); (split; [exact B|]); [rewrite <- V; exact Hb|eapply diary_fun; eauto].
Qed.

Lemma four_data : forall algo sv mask n, let w := steps sv in let hh := selected mask (households sv) in let ds := selected mask (days sv) in
  let o := selected mask (occ sv) in let a := selected mask (act sv) in sized n w o -> sized n w a -> (0 < n)%nat -> (0 < w)%nat -> length hh = n -> length ds = n ->
  (forall p i x, diary a p i x -> x = 0 \/ x = 1) -> algo <> AlgoUnknown ->
  exists tpm labels init st keys, get_data_4states algo sv mask = Ok (tpm, labels, map Some init) /\ lists_households hh ds keys /\ sized (length keys) w st /\ NoDup labels /\
    (forall x, In x labels -> exists p i k, diary st p i k /\ at_ labels k x) /\
    (forall k d h i, at_ keys k (d, h) -> (i < w)%nat -> exists s home awake, diary st k i s /\ at_ labels s (10 * home + awake) /\
       counts n (fun p => belongs hh ds h d p /\ diary o p i true) home /\ counts n (fun p => belongs hh ds h d p /\ diary a p i 1) awake) /\
    length init = length labels /\ is_pdf init /\ (forall k q, at_ init k q -> q == q_of (persons_at (Nat.eqb k) st 0) / q_of (length keys))%Q /\
    length tpm = w /\ (forall i m, at_ tpm i m -> let into := match algo, i with AlgoLast, O => (w - 1)%nat | _, _ => i end in frequencies (length labels) st (before w into) into m).
Proof.
  intros algo sv mask n w hh ds o a So Sa Hn Hw Lh Ld Ha Hal.
  destruct (four_main sv mask n So Sa Lh Ld Ha) as (g & keys & E & S & K & M & V). fold w hh ds o a in E, S, K, M, V.
  assert (Hk := keys_some n hh ds keys Lh Ld Hn M).
  destruct (convert_table _ _ _ S Hk Hw) as (st & labels & Ec & Ss & N & I & D & B & (mp & mi & mk & Mx & Ml)).
  destruct (initial_pdf_spec _ w st (length labels) Ss Hk Hw) as (init & Ei & Li & Pi & Fi); [intros p x Hx; eapply B; eauto|].
  destruct (@tpms_spec_max algo None (mkTable w st) (length labels)) as (ms & Em & Lm & Fm); cbn [width rows].
  { intros p r Hr. apply (proj2 Ss). eapply at_in; eauto. }
  { exact Hw. } { exact Hal. } { right. split; [reflexivity|]. eauto. } { exact B. }
  exists ms, labels, init, st, keys. split.
  { unfold get_data_4states. rewrite (selected_compress _ mask (households sv)), (selected_compress _ mask (days sv)). fold w hh ds. rewrite E. cbn [bind]. rewrite Ec. cbn [bind]. rewrite Ei. cbn [bind]. rewrite Em. reflexivity. }
  split; [split; [exact K|exact M]|]. split; [exact Ss|]. split; [exact N|]. split; [|split].
  - intros x Hx. apply I in Hx. destruct Hx as (p & i & Hx). destruct (D _ _ _ Hx) as (k & H1 & H2). eauto.
  - intros k d h i Hk' Hi. destruct (D _ _ _ (V k d h i Hk' Hi)) as (s & H1 & H2). destruct (four_counts n w o a hh ds h d i So Sa Hi) as (C1 & C2). eauto 8.
  - repeat (split; [assumption|]). exact Fm.
Qed.

Lemma small_labels : forall (l : list Z) m, NoDup l -> (forall x, In x l -> 0 <= x < Z.of_nat m) -> (length l <= m)%nat.
Proof.
  intros l m N H. rewrite <- (map_length Z.to_nat l), <- (seq_length m 0). apply NoDup_incl_length.
  - apply nodup_map_in; [|exact N]. intros x y Hx Hy E. apply H in Hx, Hy. lia.
  - intros x Hx. apply in_map_iff in Hx. destruct Hx as (y & <- & Hy). apply H in Hy. apply in_seq. lia.
Qed.

Lemma three_counts : forall n P A B C a b c k, counts n P k -> counts n A a -> counts n B b -> counts n C c ->
  (forall p, A p -> P p) -> (forall p, B p -> P p) -> (forall p, C p -> P p) -> (forall p, A p -> B p -> False) -> (forall p, A p -> C p -> False) -> (forall p, B p -> C p -> False) -> a + b + c <= k.
Proof.
  intros n P A B C a b c k (lp & Np & <- & Hp) (la & Na & <- & HA) (lb & Nb & <- & HB) (lc & Nc & <- & HC) I1 I2 I3 D1 D2 D3.
  enough (length (la ++ lb ++ lc)%list <= length lp)%nat by (rewrite !List.app_length in H; lia). apply NoDup_incl_length.
  - assert (App : forall l m : list nat, NoDup l -> NoDup m -> (forall x, In x l -> In x m -> False) -> NoDup (l ++ m)%list).
    { induction l as [|x l IH]; intros m Nl Nm Dj; [exact Nm|]. inversion Nl; subst. cbn. constructor; [|apply IH; auto; intros y Hy; apply Dj; right; exact Hy]. intro X. apply in_app_or in X. destruct X as [X|X]; [contradiction|]. apply (Dj x); [left; reflexivity|exact X]. }
    apply App; [exact Na|apply App; [exact Nb|exact Nc|]|].
    + intros x X1 X2. apply (D3 x); [apply HB in X1; apply X1|apply HC in X2; apply X2].
    + intros x X1 X2. apply in_app_or in X2. destruct X2 as [X2|X2]; [apply (D1 x); [apply HA in X1; apply X1|apply HB in X2; apply X2]|apply (D2 x); [apply HA in X1; apply X1|apply HC in X2; apply X2]].
  - intros x X. apply Hp. apply in_app_or in X. destruct X as [X|X]; [apply HA in X; destruct X; split; auto|]. apply in_app_or in X. destruct X as [X|X]; [apply HB in X|apply HC in X]; destruct X; split; auto.
Qed.

Lemma sparse_data : forall d sv mask N n, let w := steps sv in let hh := selected mask (households sv) in let ds := selected mask (days sv) in
  let o := selected mask (occ sv) in let prim := selected mask (primary sv) in let sec := selected mask (secondary sv) in
  sized N w (primary sv) -> sized N w (secondary sv) -> sized N w (occ sv) -> sized n w o -> (0 < n)%nat -> (0 < w)%nat -> (Z.of_nat w <= 65536) -> length hh = n -> length ds = n ->
  (forall p i c, diary (primary sv) p i c -> meaning d c <> None) -> (forall p i c, diary (secondary sv) p i c -> meaning d c <> None) ->
  (forall h day k, counts n (belongs hh ds h day) k -> k <= 6) ->
  exists p labels init st keys, get_data_sparse9states d sv mask = Ok (p, labels, map Some init) /\ lists_households hh ds keys /\ sized (length keys) w st /\ NoDup labels /\
    (forall x, In x labels -> exists p i k, diary st p i k /\ at_ labels k x) /\
    (forall k day h i, at_ keys k (day, h) -> (i < w)%nat -> exists s a wk ot, diary st k i s /\ at_ labels s (a + 7 * wk + 49 * ot) /\ a + wk + ot <= 6 /\
      counts n (fun p => belongs hh ds h day p /\ diary o p i true /\ exists c c', diary prim p i c /\ diary sec p i c' /\ active_codes d c c') a /\
      counts n (fun p => belongs hh ds h day p /\ diary o p i false /\ exists c c', diary prim p i c /\ diary sec p i c' /\ (work_code c \/ work_code c')) wk /\
      counts n (fun p => belongs hh ds h day p /\ diary o p i false /\ exists c c', diary prim p i c /\ diary sec p i c' /\ ~ (work_code c \/ work_code c')) ot) /\
    length init = length labels /\ is_pdf init /\ (forall k q, at_ init k q -> q == q_of (persons_at (Nat.eqb k) st 0) / q_of (length keys))%Q /\
    n_times p = Z.of_nat w /\ n_states p = Z.of_nat (length labels) /\ parallel p /\
    (forall i a, (i < w)%nat -> ordered_by_origin p (Z.of_nat i) /\
      let row := row_of p (Z.of_nat i) (Z.of_nat a) in
      let seen := length (filter (is_at i a) st) in
      let moved := fun b => length (filter (fun r => is_at i a r && is_at (next w i) b r) st) in
      (forall b q, In (b, q) row <-> exists b', b = Z.of_nat b' /\ (0 < moved b')%nat /\ q = (q_of (moved b') / q_of seen)%Q) /\
      StronglySorted Z.lt (map fst row) /\ ((0 < seen)%nat -> is_pdf (map snd row)) /\ (seen = 0%nat -> row = [])).
Proof.
  intros d sv mask N n w hh ds o prim sec Sp Ss So So' Hn Hw Hw' Lh Ld Kp Ks H6.
  destruct (sparse_main d sv mask N n Sp Ss So So' Hn Hw Lh Ld Kp Ks) as (g & keys & E & (K & M) & S & V). fold w hh ds o prim sec in E, S, V, K, M.
  assert (Hk := keys_some n hh ds keys Lh Ld Hn M).
  destruct (convert_table _ _ _ S Hk Hw) as (st & labels & Ec & Sst & Nl & I & D & B & (mp & mi & mk & Mx & Ml)).
  assert (V6 : forall k day h i, at_ keys k (day, h) -> (i < w)%nat -> exists a wk ot, 
      counts n (fun p => belongs hh ds h day p /\ diary o p i true /\ exists c c', diary prim p i c /\ diary sec p i c' /\ active_codes d c c') a /\
      counts n (fun p => belongs hh ds h day p /\ diary o p i false /\ exists c c', diary prim p i c /\ diary sec p i c' /\ (work_code c \/ work_code c')) wk /\
      counts n (fun p => belongs hh ds h day p /\ diary o p i false /\ exists c c', diary prim p i c /\ diary sec p i c' /\ ~ (work_code c \/ work_code c')) ot /\
      diary g k i (a + 7 * wk + 49 * ot) /\ 0 <= a /\ 0 <= wk /\ 0 <= ot /\ a + wk + ot <= 6).
  { intros k day h i Hk' Hi. destruct (V k day h i Hk' Hi) as (a & wk & ot & C1 & C2 & C3 & G). exists a, wk, ot. repeat (split; [assumption|]). split; [eapply counts_nonneg; eauto|]. split; [eapply counts_nonneg; eauto|]. split; [eapply counts_nonneg; eauto|].
    assert (Cb : counts n (belongs hh ds h day) (how_many n (member hh ds h day))) by (apply counts_filter; intros p _; apply member_belongs).
    specialize (H6 h day _ Cb). eapply Z.le_trans; [|exact H6]. apply (three_counts _ _ _ _ _ _ _ _ _ Cb C1 C2 C3).
    - intros p X; apply X. - intros p X; apply X. - intros p X; apply X.
    - intros p (_ & X & _) (_ & Y & _). assert (Q := diary_fun _ _ _ _ _ _ X Y). discriminate.
    - intros p (_ & X & _) (_ & Y & _). assert (Q := diary_fun _ _ _ _ _ _ X Y). discriminate.
    - intros p (_ & _ & c & c' & P1 & P2 & P3) (_ & _ & e & e' & Q1 & Q2 & Q3). rewrite (diary_fun _ _ _ _ _ _ Q1 P1), (diary_fun _ _ _ _ _ _ Q2 P2) in Q3. contradiction. }
  assert (Lb : (length labels <= 295)%nat).
  { apply small_labels; [exact Nl|]. intros x Hx. apply I in Hx. destruct Hx as (p & i & Hx). destruct (diary_sized _ _ _ _ _ _ _ S Hx) as (P1 & P2). destruct (lt_at _ keys p P1) as ([day h] & Hp). destruct (V6 _ _ _ _ Hp P2) as (a & wk & ot & _ & _ & _ & G & A1 & A2 & A3 & A4). rewrite (diary_fun _ _ _ _ _ _ Hx G). lia. }
  destruct (initial_pdf_spec _ w st (length labels) Sst Hk Hw) as (init & Ei & Li & Pi & Fi); [intros p x Hx; eapply B; eauto|].
  destruct (sparse_tpm_main (length keys) w st Sst Hk Hw Hw') as (p & Ep & Nt & Par & Bd & (q & j & x & Dx & Ns) & R).
  { intros q i x Hx. apply B in Hx. lia. }
  assert (Nst : n_states p = Z.of_nat (length labels)). { specialize (B _ _ _ Dx). specialize (Bd _ _ _ Mx). lia. }
  exists p, labels, init, st, keys. split.
  { unfold get_data_sparse9states. rewrite E. cbn [bind]. rewrite Ec. cbn [bind]. fold w. rewrite Ep. cbn [bind]. rewrite Nst, Nat2Z.id, Ei. reflexivity. }
  split; [split; [exact K|exact M]|]. split; [exact Sst|]. split; [exact Nl|]. split; [|split].
  - intros y Hy. apply I in Hy. destruct Hy as (p' & i & Hy). destruct (D _ _ _ Hy) as (k & H1 & H2). eauto.
  - intros k day h i Hk' Hi. destruct (V6 k day h i Hk' Hi) as (a & wk & ot & C1 & C2 & C3 & G & _ & _ & _ & A4). destruct (D _ _ _ G) as (s & H1 & H2). exists s, a, wk, ot. auto 8.
  - repeat (split; [assumption|]). intros i a Hi. destruct (R i Hi) as (R1 & R2). destruct (R2 a) as (R3 & R4 & R5 & R6). repeat (split; [assumption|]). assumption.
Qed.
