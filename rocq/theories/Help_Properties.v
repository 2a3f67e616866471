(** * C207, C208: helpers of the older simulators. *)

From Coq Require Import String List ZArith QArith Bool Arith Lia Lqa.
From Coq Require Import ZifyBool ZifyNat.
From Verif Require Import Prelude PreludeFacts SpecBase SpecBaseFacts Appliance_Model Matrix_Proofs Help_Model Help_Spec Help_Proofs.
Import ListNotations.

Open Scope string_scope.
Open Scope list_scope.
Open Scope Q_scope.

(** ** C207: probabilities of activities and of switching on *)

(** The sheet of CREST: the chance of activity a with n active occupants is in line 6 n + a of
    the part of the day type; LEVEL can always happen. *)
Theorem C207_crest : forall sheet names day add pdf labels, crest_pdf sheet names day add = Ok (pdf, labels) ->
  exists first, (day = "d" /\ first = 29%nat \/ day = "e" /\ first = 65%nat) /\ List.length pdf = 144%nat /\
  labels = (if add then names ++ ["LEVEL"] else names) /\
  forall t n a, (t < 144)%nat -> (n < 6)%nat -> (a < 6)%nat ->
    (exists line x, at_ sheet (first + 6 * n + a) line /\ at_ line t x /\ chance pdf t n a x) /\
    (add = true -> chance pdf t n 6 1) /\ (add = false -> forall x, ~ chance pdf t n 6 x).
Proof.
  intros sheet names day add pdf labels H. unfold crest_pdf in H.
  destruct (if String.eqb day "d" then Ok 28%nat else if String.eqb day "e" then Ok (28 + 36)%nat else Err ValueError) as [header|] eqn:Eh; [|discriminate]. cbn [bind] in H.
  exists (S header). split.
  { destruct (String.eqb_spec day "d"); [injection Eh as <-; auto|]. destruct (String.eqb_spec day "e"); [injection Eh as <-; auto|discriminate]. }
  clear Eh. set (df := firstn 36 (skipn (S header) sheet)) in *.
  destruct (Nat.eqb (List.length df) 36 && forallb (fun r => Nat.eqb (List.length r) 144) df) eqn:Ec; cbn [negb] in H; [|discriminate].
  apply andb_true_iff in Ec. destruct Ec as [Ec _]. apply Nat.eqb_eq in Ec.
  match type of H with bind ?X _ = _ => destruct X as [p|] eqn:Ep; [|discriminate] end. cbn [bind] in H.
  assert (E1 : add_level add p = pdf) by congruence. assert (E2 : add_name add names = labels) by congruence. clear H.
  destruct (mapM3 _ _ nat _ _ _ _ _ 0%nat Ep) as [L K]. split; [rewrite <- E1; unfold add_level; destruct add; [rewrite map_length|]; exact L|].
  split; [rewrite <- E2; reflexivity|]. intros t n a Ht Hn Ha. destruct (K t n Ht Hn) as (m & row & M1 & M2 & M3 & M4 & M5).
  assert (Lf : List.length (firstn 6 (skipn (6 * n) df)) = 6%nat) by (rewrite firstn_length, skipn_length, Ec; lia). rewrite Lf in M4.
  destruct (lt_at _ (firstn 6 (skipn (6 * n) df)) a) as [line Hl]; [rewrite Lf; exact Ha|]. destruct (M5 a line Hl) as (x & X1 & X2). apply vget_ok in X2.
  apply (proj1 (at_firstn _ _ 6 a line Ha)) in Hl. apply (proj1 (at_skipn _ _ _ _ _)) in Hl. unfold df in Hl. apply (proj1 (at_firstn _ (skipn (S header) sheet) 36 (6 * n + a) line ltac:(lia))) in Hl. apply (proj1 (at_skipn _ _ _ _ _)) in Hl.
  assert (C : forall b y, at_ row b y -> chance pdf t n b y).
  { intros b y Hb. rewrite <- E1. destruct add; [|exists m, row; auto]. destruct (add_level_on p t n row (ex_intro _ m (conj M1 M3))) as (m' & A1 & A2).
    exists m', (row ++ [1]). split; [exact A1|]. split; [exact A2|]. now apply at_app_l. }
  split; [|split].
  - exists line, x. split; [replace (S header + 6 * n + a)%nat with (S header + (6 * n + a))%nat by lia; exact Hl|]. split; [exact X2|]. apply C. exact X1.
  - intros ->. rewrite <- E1. destruct (add_level_on p t n row (ex_intro _ m (conj M1 M3))) as (m' & A1 & A2). exists m', (row ++ [1]). split; [exact A1|]. split; [exact A2|]. rewrite <- M4. apply at_app_end.
  - intros -> y (m' & r' & B1 & B2 & B3). rewrite <- E1 in B1. cbn [add_level] in B1. pose proof (at_fun _ _ _ _ _ M1 B1) as <-. pose proof (at_fun _ _ _ _ _ M3 B2) as <-. apply at_lt in B3. lia.
Qed.
Print Assumptions C207_crest.

(** Two lines less and the sheet cannot be read; other day types are refused. *)
Theorem C207_crest_refused : forall sheet names day add,
  (day <> "d" -> day <> "e" -> crest_pdf sheet names day add = Err ValueError) /\
  ((List.length sheet < 65)%nat -> crest_pdf sheet names "d" add = Err ValueError) /\
  ((List.length sheet < 101)%nat -> crest_pdf sheet names "e" add = Err ValueError).
Proof.
  intros sheet names day add. unfold crest_pdf. split; [|split].
  - intros H1 H2. apply String.eqb_neq in H1, H2. rewrite H1, H2. reflexivity.
  - intro L. change (String.eqb "d" "d") with true. cbn [bind]. set (df := firstn 36 (skipn 29 sheet)).
    assert (Ld : (List.length df <> 36)%nat) by (unfold df; rewrite firstn_length, skipn_length; lia). apply Nat.eqb_neq in Ld. rewrite Ld. reflexivity.
  - intro L. change (String.eqb "e" "d") with false. change (String.eqb "e" "e") with true. cbn [bind]. set (df := firstn 36 (skipn (S (28 + 36)) sheet)).
    assert (Ld : (List.length df <> 36)%nat) by (unfold df; rewrite firstn_length, skipn_length; lia). apply Nat.eqb_neq in Ld. rewrite Ld. reflexivity.
Qed.
Print Assumptions C207_crest_refused.

Definition ex_sheet : list (list Q) := map (fun i => repeat (inject_Z (Z.of_nat i)) 144) (seq 0 101).
Definition look (pdf : list (list (list Q))) (t n a : nat) : option Q :=
  match nth_error pdf t with Some m => match nth_error m n with Some r => nth_error r a | None => None end | None => None end.
Example C207_crest_ex : match crest_pdf ex_sheet ["ACT_TV"] "e" true with Ok (pdf, l) => (l, look pdf 143 2 1, look pdf 0 0 6) | Err _ => ([], None, None) end
  = (["ACT_TV"; "LEVEL"], Some 78, Some 1).
Proof. vm_compute. reflexivity. Qed.

(** The profiles of GTOU: no activity without active occupants, otherwise what was saved. *)
Theorem C207_gtou : forall load day add pdf labels, gtou_pdf load day add = Ok (pdf, labels) ->
  (day = "d" \/ day = "e") /\ List.length pdf = 144%nat /\ labels = (if add then gtou_labels ++ ["LEVEL"] else gtou_labels) /\
  forall t n a act, (t < 144)%nat -> (n < 6)%nat -> at_ gtou_labels a act ->
    (n = 0%nat -> chance pdf t n a 0) /\
    (n <> 0%nat -> exists p x, load day act n = Ok p /\ List.length p = 144%nat /\ at_ p t x /\ chance pdf t n a x) /\
    (add = true -> chance pdf t n 8 1) /\ (add = false -> forall x, ~ chance pdf t n 8 x).
Proof.
  intros load day add pdf labels H. unfold gtou_pdf in H.
  destruct (String.eqb day "d" || String.eqb day "e")%bool eqn:Ed; cbn [negb] in H; [|discriminate]. split; [apply orb_true_iff in Ed; rewrite !String.eqb_eq in Ed; exact Ed|]. clear Ed.
  match type of H with bind ?X _ = _ => destruct X as [pr|] eqn:Epr; [|discriminate] end. cbn [bind] in H.
  match type of H with bind ?X _ = _ => destruct X as [p|] eqn:Ep; [|discriminate] end. cbn [bind] in H.
  assert (E1 : add_level add p = pdf) by congruence. assert (E2 : add_name add gtou_labels = labels) by congruence. clear H.
  destruct (mapM_ok _ _ _ _ _ Epr) as [Lp Kp].
  destruct (mapM3 _ _ nat (fun _ _ => pr) _ _ _ _ 0%nat Ep) as [L K]. split; [rewrite <- E1; unfold add_level; destruct add; [rewrite map_length|]; exact L|].
  split; [rewrite <- E2; reflexivity|]. intros t n a act Ht Hn Ha. destruct (K t n Ht Hn) as (m & row & M1 & M2 & M3 & M4 & M5).
  destruct (Kp a act Ha) as (of_act & O1 & O2). destruct (mapM_ok _ _ _ _ _ O2) as [_ Ko]. destruct (Ko n n (at_seq0 _ _ Hn)) as (prof & P1 & P2).
  destruct (M5 a of_act O1) as (x & X1 & X2). apply vget_ok in P1. rewrite P1 in X2. cbn [bind] in X2. apply vget_ok in X2.
  assert (C : forall b y, at_ row b y -> chance pdf t n b y).
  { intros b y Hb. rewrite <- E1. destruct add; [|exists m, row; auto]. destruct (add_level_on p t n row (ex_intro _ m (conj M1 M3))) as (m' & A1 & A2).
    exists m', (row ++ [1]). split; [exact A1|]. split; [exact A2|]. now apply at_app_l. }
  assert (L8 : List.length row = 8%nat) by (rewrite M4, Lp; reflexivity).
  split; [|split; [|split]].
  - intros ->. cbn [Nat.eqb] in P2. apply C. assert (Ex : x = 0); [|rewrite <- Ex; exact X1]. assert (Epf : prof = repeat 0 144) by congruence. apply at_in in X2. rewrite Epf in X2. exact (repeat_spec _ _ _ X2).
  - intro N. apply Nat.eqb_neq in N. rewrite N in P2. destruct (load day act n) as [q|] eqn:El; [|discriminate]. cbn [bind] in P2. destruct (Nat.eqb_spec (List.length q) 144) as [E|E]; [|discriminate].
    assert (Eq : q = prof) by congruence. subst q. exists prof, x. split; [reflexivity|]. split; [exact E|]. split; [exact X2|]. apply C. exact X1.
  - intros ->. rewrite <- E1. destruct (add_level_on p t n row (ex_intro _ m (conj M1 M3))) as (m' & A1 & A2). exists m', (row ++ [1]). split; [exact A1|]. split; [exact A2|]. rewrite <- L8. apply at_app_end.
  - intros -> y (m' & r' & B1 & B2 & B3). rewrite <- E1 in B1. cbn [add_level] in B1. pose proof (at_fun _ _ _ _ _ M1 B1) as <-. pose proof (at_fun _ _ _ _ _ M3 B2) as <-. apply at_lt in B3. lia.
Qed.
Print Assumptions C207_gtou.

(** The names of the activities, in order; another type of day is refused whatever is saved. *)
Theorem C207_gtou_names : forall load day pdf labels, gtou_pdf load day false = Ok (pdf, labels) ->
  labels = ["ACT_TV"; "ACT_COOKING"; "ACT_LAUNDRY"; "ACT_WASHDRESS"; "ACT_IRON"; "ACT_HOUSECLEAN"; "ACT_DISHWASHING"; "ACT_ELEC"].
Proof. intros load day pdf labels H. destruct (C207_gtou _ _ _ _ _ H) as (_ & _ & E & _). exact E. Qed.

Theorem C207_gtou_refused : forall load day add, day <> "d" -> day <> "e" -> gtou_pdf load day add = Err AssertionError.
Proof. intros load day add H1 H2. unfold gtou_pdf. apply String.eqb_neq in H1, H2. rewrite H1, H2. reflexivity. Qed.
Print Assumptions C207_gtou_names.
Print Assumptions C207_gtou_refused.

Example C207_gtou_refused_ex : gtou_pdf (fun _ _ _ => Ok []) "f" true = Err AssertionError.
Proof. reflexivity. Qed.

Example C207_gtou_ex : match gtou_pdf (fun _ act n => Ok (repeat (if String.eqb act "ACT_IRON" then inject_Z (Z.of_nat n) else 1 # 3) 144)) "d" true with
    Ok (pdf, l) => (l, look pdf 77 3 4, look pdf 77 0 4, look pdf 77 0 8) | Err _ => ([], None, None, None) end = (gtou_labels ++ ["LEVEL"], Some 3, Some 0, Some 1).
Proof. vm_compute. reflexivity. Qed.

(** The row of every household: that of its number of active occupants. *)
Theorem C207_rows : forall occ pdf, (forall o, In o occ -> (0 <= o < Z.of_nat (List.length pdf))%Z) ->
  exists rows, probs_of_occupancy occ pdf = Ok rows /\ List.length rows = List.length occ /\
  forall h o, at_ occ h o -> exists row, at_ rows h row /\ at_ pdf (Z.to_nat o) row.
Proof.
  intros occ pdf H. unfold probs_of_occupancy.
  assert (T : forall o, In o occ -> exists row, bind (py_index (List.length pdf) o) (vget pdf) = Ok row /\ at_ pdf (Z.to_nat o) row).
  { intros o Ho. specialize (H o Ho). rewrite py_index_Z by lia. cbn [bind]. destruct (lt_at _ pdf (Z.to_nat o)) as [row Hr]; [lia|]. exists row. split; [now apply vget_ok|exact Hr]. }
  destruct (mapM_total _ _ (fun o => bind (py_index (List.length pdf) o) (vget pdf)) occ) as [rows E].
  { intros o Ho. destruct (T o Ho) as (row & R & _). eauto. }
  exists rows. split; [exact E|]. destruct (mapM_ok _ _ _ _ _ E) as [L K]. split; [exact L|]. intros h o Ho. destruct (K h o Ho) as (row & R1 & R2).
  destruct (T o (at_in _ _ _ _ Ho)) as (row' & R3 & R4). rewrite R2 in R3. injection R3 as <-. exists row. split; assumption.
Qed.
Print Assumptions C207_rows.
Example C207_rows_ex : probs_of_occupancy [2; 0]%Z [[1]; [2]; [3]] = Ok [[3]; [1]] /\ probs_of_occupancy [3]%Z [[1]; [2]; [3]] = Err IndexError.
Proof. split; reflexivity. Qed.

(** The chance that an appliance is switched on is its own one times that of its activity. *)
Theorem C207_switch_on : forall pdfs labels apps occ out, NoDup labels -> ~ In "ACTIVE_OCC" labels -> switchon_probs pdfs labels apps occ = Ok out ->
  List.length out = List.length pdfs /\
  forall h pdf o j ty q, at_ pdfs h pdf -> at_ occ h o -> at_ apps j (ty, q) -> exists row y, at_ out h row /\ List.length row = List.length apps /\ at_ row j y /\
    (forall k p, at_ labels k ty -> at_ pdf k p -> y == q * p) /\
    (ty = "ACTIVE_OCC" -> ((0 < o)%Z -> y == q) /\ ((o <= 0)%Z -> y == 0)) /\
    (~ In ty labels -> ty <> "ACTIVE_OCC" -> y == q).
Proof.
  intros pdfs labels apps occ out ND NA H. unfold switchon_probs in H. destruct (Nat.eqb_spec (List.length occ) (List.length pdfs)) as [L|]; cbn [negb] in H; [|discriminate].
  destruct (mapM_ok _ _ _ _ _ H) as [Lo K]. rewrite combine_length, L, Nat.min_id in Lo. split; [exact Lo|].
  intros h pdf o j ty q Hp Ho Hj. destruct (K h (pdf, o)) as (row & R1 & R2). { rewrite Parse_GroupProofs.combine_nth_error. unfold at_ in Hp, Ho. rewrite Hp, Ho. reflexivity. }
  cbn [fst snd] in R2. destruct (times_activities labels 0 pdf (map fst apps) (map (fun a => 1 * snd a) apps)) as [r|] eqn:Er; [|discriminate]. cbn [bind] in R2.
  assert (Erow : map2 (fun ty y => if String.eqb ty "ACTIVE_OCC" then y * b2q (Z.ltb 0 o) else y) (map fst apps) r = row) by congruence. clear R2.
  destruct (times_ok _ _ _ _ _ _ (eq_trans (map_length _ _) (eq_sym (map_length _ _))) Er) as (T1 & _ & T3). rewrite map_length in T1.
  destruct (T3 ND j ty (1 * q)) as (y0 & Y1 & Y2 & Y3). { apply at_map. exists (ty, q). auto. } { apply at_map. exists (ty, q). auto. }
  exists row, (if String.eqb ty "ACTIVE_OCC" then y0 * b2q (Z.ltb 0 o) else y0). split; [exact R1|]. split; [rewrite <- Erow, map2_length, map_length, T1; apply Nat.min_id|].
  split; [rewrite <- Erow; apply at_map2; exists ty, y0; split; [apply at_map; exists (ty, q); auto|split; [exact Y1|reflexivity]]|].
  split; [|split].
  - intros k p Hk Hp'. destruct (String.eqb_spec ty "ACTIVE_OCC") as [->|_]; [exfalso; apply NA; eapply at_in; exact Hk|]. rewrite (Y3 k p Hk Hp'). ring.
  - intros ->. rewrite String.eqb_refl, (Y2 NA). split; intro P; [assert (E : Z.ltb 0 o = true) by lia|assert (E : Z.ltb 0 o = false) by lia]; rewrite E; cbn [b2q]; ring.
  - intros N1 N2. apply String.eqb_neq in N2. rewrite N2, (Y2 N1). ring.
Qed.
Print Assumptions C207_switch_on.

Example C207_switch_on_ex : option_map (map (map Qred)) (match switchon_probs [[1 # 2; 1]; [1 # 4; 1]] ["ACT_TV"; "LEVEL"]
    [("ACT_TV", 1 # 10); ("LEVEL", 1 # 5); ("ACTIVE_OCC", 1 # 3); ("NOTHING", 1 # 7)] [2; 0]%Z with Ok m => Some m | Err _ => None end)
  = Some [[1 # 20; 1 # 5; 1 # 3; 1 # 7]; [1 # 40; 1 # 5; 0; 1 # 7]].
Proof. vm_compute. reflexivity. Qed.

(** It is a chance, and at most that of the appliance. *)
Theorem C207_bounds : forall pdfs labels apps occ out, switchon_probs pdfs labels apps occ = Ok out ->
  (forall pdf p, In pdf pdfs -> In p pdf -> 0 <= p /\ p <= 1) -> (forall a, In a apps -> 0 <= snd a) ->
  forall h row j y ty q, at_ out h row -> at_ row j y -> at_ apps j (ty, q) -> 0 <= y /\ y <= q.
Proof.
  intros pdfs labels apps occ out H Hp Ha h row j y ty q Hr Hy Hj. unfold switchon_probs in H. destruct (Nat.eqb_spec (List.length occ) (List.length pdfs)) as [L|]; cbn [negb] in H; [|discriminate].
  destruct (mapM_ok _ _ _ _ _ H) as [Lo K]. destruct (lt_at _ (combine pdfs occ) h) as [[pdf o] Hc]; [rewrite <- Lo; eapply at_lt; exact Hr|].
  destruct (K h (pdf, o) Hc) as (row' & R1 & R2). pose proof (at_fun _ _ _ _ _ Hr R1) as <-. cbn [fst snd] in R2.
  destruct (times_activities labels 0 pdf (map fst apps) (map (fun a => 1 * snd a) apps)) as [r|] eqn:Er; [|discriminate]. cbn [bind] in R2.
  assert (Erow : map2 (fun ty y => if String.eqb ty "ACTIVE_OCC" then y * b2q (Z.ltb 0 o) else y) (map fst apps) r = row) by congruence. clear R2.
  assert (Hpdf : In pdf pdfs) by (apply at_in in Hc; eapply in_combine_l; exact Hc).
  destruct (times_bounds _ _ _ _ _ _ (eq_trans (map_length _ _) (eq_sym (map_length _ _))) Er (fun p => Hp pdf p Hpdf)) with (j := j) (x := 1 * q) as (y0 & Y1 & Y2 & Y3).
  { intros x Hx. apply in_map_iff in Hx. destruct Hx as (a & <- & Hin). specialize (Ha a Hin). lra. }
  { apply at_map. exists (ty, q). auto. }
  rewrite <- Erow in Hy. apply at_map2 in Hy. destruct Hy as (ty' & y' & A1 & A2 & ->). pose proof (at_fun _ _ _ _ _ Y1 A2) as <-.
  destruct (String.eqb ty' "ACTIVE_OCC"); [destruct (Z.ltb 0 o); cbn [b2q]; nra|lra].
Qed.
Print Assumptions C207_bounds.

(** With the German profiles and nobody active only LEVEL appliances, and appliances of an
    activity nobody knows, are switched on. *)
Theorem C207_nobody : forall load day pdf labels t m apps occ rows out, gtou_pdf load day true = Ok (pdf, labels) -> at_ pdf t m ->
  probs_of_occupancy occ m = Ok rows -> switchon_probs rows labels apps occ = Ok out ->
  forall h j ty q, at_ occ h 0%Z -> at_ apps j (ty, q) -> exists row y, at_ out h row /\ at_ row j y /\
    (In ty gtou_labels \/ ty = "ACTIVE_OCC" -> y == 0) /\ (ty = "LEVEL" -> y == q).
Proof.
  intros load day pdf labels t m apps occ rows out Hg Hm Hp Hs h j ty q Ho Hj. destruct (C207_gtou _ _ _ _ _ Hg) as (_ & L & El & K).
  assert (Ht : (t < 144)%nat) by (rewrite <- L; eapply at_lt; exact Hm).
  assert (ND : NoDup labels). { rewrite El. unfold gtou_labels. simpl List.app. repeat (constructor; [simpl; intuition discriminate|]). constructor. }
  assert (NA : ~ In "ACTIVE_OCC" labels) by (rewrite El; unfold gtou_labels; simpl; intuition discriminate).
  destruct (mapM_ok _ _ _ _ _ Hp) as [_ Kp]. destruct (Kp h 0%Z Ho) as (r & R1 & R2).
  destruct (K t 0%nat 0%nat _ Ht ltac:(lia) eq_refl) as (_ & _ & Cl & _). destruct (Cl eq_refl) as (m' & r' & B1 & B2 & B3). pose proof (at_fun _ _ _ _ _ Hm B1) as <-.
  change 0%Z with (Z.of_nat 0) in R2. rewrite py_index_nat in R2 by (eapply at_lt; exact B2). cbn [bind] in R2. apply vget_ok in R2. pose proof (at_fun _ _ _ _ _ R2 B2) as <-.
  destruct (C207_switch_on rows labels apps occ out ND NA Hs) as [_ S]. destruct (S h r 0%Z j ty q R1 Ho Hj) as (row & y & S1 & _ & S2 & S3 & S4 & _).
  exists row, y. split; [exact S1|]. split; [exact S2|]. split.
  - intros [Hin| ->]; [|apply S4; [reflexivity|lia]]. apply in_at in Hin. destruct Hin as [k Hk]. destruct (K t 0%nat k ty Ht ltac:(lia) Hk) as (Z & _). destruct (Z eq_refl) as (m2 & r2 & D1 & D2 & D3).
    pose proof (at_fun _ _ _ _ _ Hm D1) as <-. pose proof (at_fun _ _ _ _ _ R2 D2) as <-. rewrite (S3 k 0); [ring| |exact D3]. rewrite El. apply at_app_l. exact Hk.
  - intros ->. rewrite (S3 8%nat 1); [ring| |exact B3]. rewrite El. reflexivity.
Qed.
Print Assumptions C207_nobody.

(** "An appliance of an unknown activity is refused, or at least not switched on": it keeps its
    whole chance even with nobody active. *)
Theorem C207_unknown_refuted : exists labels apps out row, ~ In "ACT_UNKNOWN" labels /\ apps = [("ACT_UNKNOWN", 1 # 2)] /\
  switchon_probs [[0; 0]] labels apps [0]%Z = Ok out /\ at_ out 0 row /\ exists y, at_ row 0 y /\ y == 1 # 2.
Proof.
  exists ["ACT_TV"; "ACT_IRON"], [("ACT_UNKNOWN", 1 # 2)]. eexists. eexists. split; [simpl; intuition discriminate|]. split; [reflexivity|]. split; [vm_compute; reflexivity|]. split; [reflexivity|].
  eexists. split; reflexivity.
Qed.
Print Assumptions C207_unknown_refuted.

(** ** C208: occupancy over the day, absorbing states, file names *)

(** A household is occupied for 24 hours if its labels all count at least one at home. *)
Theorem C208_occupied : forall states labels, (forall r, In r states -> List.length r = 144%nat) -> (forall r s, In r states -> In s r -> (0 <= s < Z.of_nat (List.length labels))%Z) ->
  exists out, occupancy24 states labels = Ok out /\ List.length out = List.length states /\
  forall h r, at_ states h r -> exists b, at_ out h b /\ (b = true <-> forall t s l, at_ r t s -> at_ labels (Z.to_nat s) l -> (10 <= l)%Z).
Proof.
  intros states labels H144 Hs. unfold occupancy24.
  assert (E : forallb (fun r => Nat.eqb (List.length r) 144) states = true) by (apply forallb_forall; intros r Hr; apply Nat.eqb_eq; auto). rewrite E. cbn [negb].
  assert (T : forall r, In r states -> exists ls, mapM (fun s => bind (py_index (List.length labels) s) (vget labels)) r = Ok ls /\ List.length ls = List.length r /\
     forall t s, at_ r t s -> exists l, at_ ls t l /\ at_ labels (Z.to_nat s) l).
  { intros r Hr.
    assert (B : forall s, In s r -> exists l, bind (py_index (List.length labels) s) (vget labels) = Ok l /\ at_ labels (Z.to_nat s) l).
    { intros s Hsr. specialize (Hs r s Hr Hsr). rewrite py_index_Z by lia. cbn [bind]. destruct (lt_at _ labels (Z.to_nat s)) as [l Hl]; [lia|]. exists l. split; [now apply vget_ok|exact Hl]. }
    destruct (mapM_total _ _ (fun s => bind (py_index (List.length labels) s) (vget labels)) r) as [ls El]. { intros s Hsr. destruct (B s Hsr) as (l & A & _). eauto. }
    exists ls. split; [exact El|]. destruct (mapM_ok _ _ _ _ _ El) as [L K]. split; [exact L|]. intros t s Ht. destruct (K t s Ht) as (l & L1 & L2).
    destruct (B s (at_in _ _ _ _ Ht)) as (l' & L3 & L4). rewrite L2 in L3. injection L3 as <-. exists l. auto. }
  match goal with |- exists out, mapM ?F _ = _ /\ _ => destruct (mapM_total _ _ F states) as [out Eo] end.
  { intros r Hr. destruct (T r Hr) as (ls & -> & _). cbn [bind]. eauto. }
  exists out. split; [exact Eo|]. destruct (mapM_ok _ _ _ _ _ Eo) as [L K]. split; [exact L|]. intros h r Hr. destruct (K h r Hr) as (b & B1 & B2).
  destruct (T r (at_in _ _ _ _ Hr)) as (ls & Els & Lls & Kls). rewrite Els in B2. cbn [bind] in B2. injection B2 as <-. eexists. split; [exact B1|]. rewrite forallb_forall. split.
  - intros A t s l Ht Hl. destruct (Kls t s Ht) as (l' & L1 & L2). pose proof (at_fun _ _ _ _ _ Hl L2) as <-. specialize (A l (at_in _ _ _ _ L1)). apply Z.ltb_lt in A.
    assert (~ (l < 10)%Z); [intro; pose proof (Z.div_lt_upper_bound l 10 1); lia|lia].
  - intros A l Hl. apply in_at in Hl. destruct Hl as [t Ht]. destruct (lt_at _ r t) as [s Hs']; [rewrite <- Lls; eapply at_lt; exact Ht|]. destruct (Kls t s Hs') as (l' & L1 & L2). pose proof (at_fun _ _ _ _ _ Ht L1) as <-.
    specialize (A t s l Hs' L2). apply Z.ltb_lt. pose proof (Z.div_le_lower_bound l 10 1). lia.
Qed.
Print Assumptions C208_occupied.

Theorem C208_other_lengths : forall states labels r, In r states -> List.length r <> 144%nat -> occupancy24 states labels = Err AssertionError.
Proof.
  intros states labels r Hr L. unfold occupancy24. destruct (forallb (fun r => Nat.eqb (List.length r) 144) states) eqn:E; [|reflexivity].
  exfalso. rewrite forallb_forall in E. specialize (E r Hr). apply Nat.eqb_eq in E. tauto.
Qed.
Print Assumptions C208_other_lengths.

Example C208_occupied_ex : occupancy24 [repeat 2%Z 144; repeat 2%Z 143 ++ [1%Z]; repeat 3%Z 144] [0; 9; 11; 20]%Z = Ok [true; false; true].
Proof. vm_compute. reflexivity. Qed.

(** Absorbing states are found exactly: an entry for time t names the states one can arrive at
    for t but not leave then; the last entry names the ones that are not left any more. *)
Theorem C208_absorbing : forall k pdfs ret, (forall p, In p pdfs -> square k p) -> absorbing_states pdfs = Ok ret ->
  exists r c, ret = r ++ [(List.length pdfs - 1, c)%nat] /\ NoDup (map fst r) /\
  (forall t s, (exists l, In (t, l) r /\ In s l) <-> stuck_at pdfs t s) /\
  (forall s, In s c <-> exists t, stuck_at pdfs t s /\ forall t' p, (t < t')%nat -> at_ pdfs t' p -> ~ exists b, goes p s b).
Proof.
  intros k pdfs ret Hk H. unfold absorbing_states in H. destruct (rev pdfs) as [|last m] eqn:Er; [discriminate|]. pose proof (rev_head _ _ _ _ Er) as Hl.
  destruct (scan 0 (ends last) [] pdfs) as [r c] eqn:E. injection H as <-. exists r, c. split; [reflexivity|]. destruct (scan_spec _ _ _ _ _ _ E) as (I1 & I2 & _ & I4). split; [exact I4|]. split.
  - intros t s. rewrite I1. split.
    + intros (x & -> & Hx). cbn [Nat.add]. now apply (stops_stuck k pdfs last) in Hx.
    + intro Hx. exists t. split; [reflexivity|]. now apply (stops_stuck k pdfs last).
  - intro s. rewrite I2. split.
    + intros [[[] _]|(x & X1 & X2)]. exists x. split; [now apply (stops_stuck k pdfs last) in X1|]. intros t' p L Hp. rewrite <- starts_in. exact (X2 t' p L Hp).
    + intros (t & T1 & T2). right. exists t. split; [now apply (stops_stuck k pdfs last)|]. intros t' p L Hp. rewrite starts_in. exact (T2 t' p L Hp).
Qed.
Print Assumptions C208_absorbing.

(** With as many ways out as in, there is only the last entry, and it is empty. *)
Theorem C208_consistent : forall k pdfs ret, (forall p, In p pdfs -> square k p) -> absorbing_states pdfs = Ok ret ->
  (forall t s, ~ stuck_at pdfs t s) -> (forall t l, In (t, l) ret -> l = []).
Proof.
  intros k pdfs ret Hk H HS t l Hl. destruct (C208_absorbing k pdfs ret Hk H) as (r & c & -> & _ & A1 & A2). apply in_app_or in Hl. destruct l as [|s l]; [reflexivity|exfalso].
  destruct Hl as [Hl|[Hl|[]]].
  - apply (HS t s). apply A1. exists (s :: l). split; [exact Hl|left; reflexivity].
  - injection Hl as _ ->. destruct (proj1 (A2 s) (or_introl eq_refl)) as (t' & T & _). exact (HS t' s T).
Qed.
Print Assumptions C208_consistent.

Example C208_absorbing_ex :
  absorbing_states [[[1; 0]; [0; 1]]; [[0; 1]; [0; 1]]; [[1; 0]; [0; 0]]] = Ok [(0, []); (2, [1]); (2, [1])]%nat.
Proof. vm_compute. reflexivity. Qed.

(** "There is an entry only for times with an absorbing state": a state that can be left but not
    arrived at gives one as well. *)
Theorem C208_entries_refuted : exists pdfs ret, (forall p, In p pdfs -> square 2 p) /\ absorbing_states pdfs = Ok ret /\ List.length ret = 2%nat /\ forall t s, ~ stuck_at pdfs t s.
Proof.
  assert (E : absorbing_states [[[1; 0]; [1; 0]]] = Ok [(0, []); (0, [])]%nat) by (vm_compute; reflexivity).
  assert (Sq : forall p, In p [[[1; 0]; [1; 0]]] -> square 2 p) by (intros p [<-|[]]; split; [reflexivity|intros r [<-|[<-|[]]]; reflexivity]).
  exists [[[1; 0]; [1; 0]]]. eexists. split; [exact Sq|]. split; [exact E|]. split; [reflexivity|]. intros t s Hs.
  destruct (C208_absorbing 2 _ _ Sq E) as (r & c & Er & _ & A1 & _). destruct (proj2 (A1 t s) Hs) as (l & L1 & L2).
  assert (Hin : In (t, l) [(0, []); (0, [])]%nat) by (rewrite Er; apply in_or_app; left; exact L1). simpl in Hin. destruct Hin as [X|[X|[]]]; injection X as _ <-; destruct L2.
Qed.
Print Assumptions C208_entries_refuted.

(** File names: the parts with a value, in the order given. *)
Theorem C208_file_parts : forall folder pairs, Forall (fun p => snd p = Yes \/ snd p = Empty) pairs -> subgroup_file folder pairs = folder.
Proof.
  assert (C : forall l, Forall (fun s => s = "") l -> String.concat "" l = "").
  { induction l as [|a l IH]; intro F; [reflexivity|]. inversion F as [|? ? F1 F2]; subst. destruct l as [|b l]; [reflexivity|]. change (String.concat "" ("" :: b :: l)) with ("" ++ ("" ++ String.concat "" (b :: l)))%string. rewrite (IH F2). reflexivity. }
  intros folder pairs F. unfold subgroup_file. set (l := map _ pairs). assert (Fl : Forall (fun s => s = "") l).
  { unfold l. clear -F. induction F as [|[k v] t H F IH]; [constructor|]. constructor; [|exact IH]. cbn [fst snd] in *. destruct H as [-> | ->]; reflexivity. }
  clearbody l. destruct l as [|b l]; [reflexivity|]. change (String.concat "" (folder :: b :: l)) with (folder ++ ("" ++ String.concat "" (b :: l)))%string. rewrite (C _ Fl). cbn [append].
  clear. induction folder as [|a s IH]; [reflexivity|]. cbn [append]. f_equal. exact IH.
Qed.
Print Assumptions C208_file_parts.
(** A value adds its name and itself, between underscores; the others add nothing. *)
Theorem C208_file_name : forall folder, subgroup_file folder [] = folder /\
  forall pairs k, (forall v, subgroup_file folder (pairs ++ [(k, Text v)]) = (subgroup_file folder pairs ++ k ++ "_" ++ v ++ "_")%string) /\
    subgroup_file folder (pairs ++ [(k, Yes)]) = subgroup_file folder pairs /\ subgroup_file folder (pairs ++ [(k, Empty)]) = subgroup_file folder pairs.
Proof.
  assert (N : forall s : string, (s ++ "")%string = s) by (induction s as [|c s IH]; [reflexivity|cbn [append]; f_equal; exact IH]).
  assert (A : forall a b c : string, ((a ++ b) ++ c)%string = (a ++ (b ++ c))%string) by (induction a as [|x a IH]; intros b c; [reflexivity|cbn [append]; f_equal; apply IH]).
  assert (C : forall a l, String.concat "" (a :: l) = (a ++ String.concat "" l)%string) by (intros a [|b l]; [symmetry; apply N|reflexivity]).
  assert (S : forall l x, String.concat "" (l ++ [x]) = (String.concat "" l ++ x)%string).
  { induction l as [|a l IH]; intro x; [reflexivity|]. cbn [List.app]. rewrite !C, IH, A. reflexivity. }
  intro folder. split; [reflexivity|]. intros pairs k. unfold subgroup_file. repeat rewrite map_app. cbn [map fst snd].
  split; [intro v|split]; try rewrite map_app; cbn [map fst snd]; rewrite app_comm_cons, S; [reflexivity|apply N..].
Qed.
Print Assumptions C208_file_name.
Example C208_file_parts_ex : subgroup_file "x/" [("weekday", Text "1"); ("quarter", Empty); ("household_type", Text "2")] = "x/weekday_1_household_type_2_".
Proof. reflexivity. Qed.

(** "Different subgroups have different files" fails: true and absent values look the same, and
    so does the same subgroup in another order look different. *)
Theorem C208_file_names_refuted : exists f a b c d, a <> b /\ subgroup_file f a = subgroup_file f b /\ (forall p, In p c <-> In p d) /\ subgroup_file f c <> subgroup_file f d.
Proof.
  exists "x/", [("is_weekend", Yes)], [("is_weekend", Empty)], [("a", Text "1"); ("b", Text "2")], [("b", Text "2"); ("a", Text "1")].
  split; [discriminate|]. split; [reflexivity|]. split; [intro p; simpl; tauto|]. vm_compute. discriminate.
Qed.
Print Assumptions C208_file_names_refuted.
