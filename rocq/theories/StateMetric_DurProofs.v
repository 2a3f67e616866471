(** * Proofs for the durations of the states. *)

From Coq Require Import List ZArith QArith Bool Arith Lia Permutation.
From Coq Require Import ZifyBool ZifyNat.
From Verif Require Import Prelude PreludeFacts SpecBase SpecBaseFacts Parse_Model Parse_DurProofs Appliance_Model LoadMetric_Model StateMetric_Model StateMetric_Spec.
Import ListNotations.

Open Scope nat_scope.

(** ** One row *)
Fixpoint starts (o : nat) (runs : list (nat * nat)) : list nat :=
  match runs with [] => [] | p :: t => o :: starts (o + snd p) t end.
Fixpoint run_total (runs : list (nat * nat)) : nat := match runs with [] => 0 | p :: t => snd p + run_total t end.
Fixpoint alt (z : nat) (runs : list (nat * nat)) : Prop :=
  match runs with [] => True | p :: t => fst p <> z /\ (0 < snd p) /\ alt (fst p) t end.

Lemma map2_removelast : forall (f : nat -> nat -> bool) l z, map2 f l (z :: removelast l) = map2 f l (z :: l).
Proof.
  intros f l. induction l as [|x l IH]; intro z; [reflexivity|]. destruct l as [|y l]; [reflexivity|]. change (removelast (x :: y :: l)) with (x :: removelast (y :: l)).
  change (map2 f (x :: y :: l) (z :: x :: removelast (y :: l))) with (f x z :: map2 f (y :: l) (x :: removelast (y :: l))). rewrite IH. reflexivity.
Qed.

Lemma map2_roll : forall (f : nat -> nat -> bool) l d, map2 f l (roll_on l) = map2 f l (last l d :: l).
Proof.
  intros f [|x l] d; [reflexivity|]. unfold roll_on. rewrite map2_removelast. f_equal. f_equal. 
  clear f. revert x. induction l as [|y l IH]; intro x; [reflexivity|]. change (last (x :: y :: l) x) with (last (y :: l) x). change (last (x :: y :: l) d) with (last (y :: l) d).
  clear IH. revert y. induction l as [|w l IH]; intro y; [reflexivity|]. apply (IH w).
Qed.

Lemma lin_runs : forall l z o, exists k runs, l = repeat z k ++ unroll runs /\ where_from o (map2 differ l (z :: l)) = starts (o + k) runs /\ alt z runs.
Proof.
  induction l as [|x l IH]; intros z o; [exists 0, []; repeat split|].
  change (map2 differ (x :: l) (z :: x :: l)) with (differ x z :: map2 differ l (x :: l)). cbn [where_from]. unfold differ at 1.
  destruct (Nat.eqb_spec x z) as [->|N]; cbn [negb].
  - destruct (IH z (S o)) as (k & runs & E & W & A). exists (S k), runs. split; [simpl; rewrite <- E; reflexivity|]. split; [|exact A]. rewrite W. f_equal. lia.
  - destruct (IH x (S o)) as (k & runs & E & W & A). exists 0, ((x, S k) :: runs). split; [cbn; unfold unroll in E; rewrite <- E; reflexivity|].
    split; [|cbn; split; [exact N|split; [lia|exact A]]]. cbn [starts snd]. rewrite W, Nat.add_0_r. f_equal. f_equal. lia.
Qed.

Lemma unroll_cons : forall p runs, unroll (p :: runs) = repeat (fst p) (snd p) ++ unroll runs.
Proof. reflexivity. Qed.

Lemma unroll_length : forall runs, length (unroll runs) = run_total runs.
Proof. induction runs as [|p t IH]; [reflexivity|]. rewrite unroll_cons, app_length, repeat_length, IH. reflexivity. Qed.

Lemma vget_mid : forall A (pre post : list A) x, vget (pre ++ x :: post) (length pre) = Ok x.
Proof. intros. unfold vget. rewrite nth_error_app2, Nat.sub_diag by lia. reflexivity. Qed.

Lemma start_labels : forall runs z pre, alt z runs -> mapM (vget (pre ++ unroll runs)) (starts (length pre) runs) = Ok (map fst runs).
Proof.
  induction runs as [|[x d] t IH]; intros z pre A; [reflexivity|]. cbn [alt fst snd] in A. destruct A as (N & P & A). cbn [starts fst snd mapM map].
  rewrite unroll_cons. cbn [fst snd]. destruct d as [|d]; [lia|]. cbn [repeat List.app]. rewrite vget_mid. cbn [bind].
  specialize (IH x (pre ++ x :: repeat x d) A). rewrite <- !app_assoc in IH. cbn [List.app] in IH. rewrite app_length in IH. cbn [length] in IH. rewrite repeat_length in IH.
  replace (length pre + S d) with (length pre + S d) by lia. rewrite IH. reflexivity.
Qed.

(** Differences up to an end. *)
Definition dd (ts : list Z) (e : Z) : list Z := map2 (fun b a => (b - a)%Z) (tl ts ++ [e]) ts.

Lemma dd_starts : forall runs o, dd (map Z.of_nat (starts o runs)) (Z.of_nat (o + run_total runs)) = map (fun p => Z.of_nat (snd p)) runs.
Proof.
  induction runs as [|p t IH]; intro o; [reflexivity|]. cbn [starts map run_total]. destruct t as [|q t].
  - cbn. f_equal. lia.
  - specialize (IH (o + snd p)). replace (o + (snd p + run_total (q :: t))) with (o + snd p + run_total (q :: t)) by lia. revert IH. generalize (Z.of_nat (o + snd p + run_total (q :: t))). intros e IH.
    unfold dd in *. cbn [starts map tl List.app map2] in *. rewrite IH. f_equal. lia.
Qed.

Fixpoint bump (k : nat) (runs : list (nat * nat)) : list (nat * nat) :=
  match runs with [] => [] | [p] => [(fst p, snd p + k)] | p :: t => p :: bump k t end.

Lemma bump_cons : forall k p q t, bump k (p :: q :: t) = p :: bump k (q :: t).
Proof. reflexivity. Qed.

Lemma bump_starts : forall k runs o, starts o (bump k runs) = starts o runs.
Proof. intros k runs. induction runs as [|p [|q t] IH]; intro o; [reflexivity|reflexivity|]. rewrite bump_cons. cbn [starts]. f_equal. apply IH. Qed.

Lemma bump_fst : forall k runs, map fst (bump k runs) = map fst runs.
Proof. intros k runs. induction runs as [|p [|q t] IH]; [reflexivity|reflexivity|]. rewrite bump_cons. cbn [map]. f_equal. apply IH. Qed.

Lemma bump_total : forall k runs, runs <> [] -> run_total (bump k runs) = run_total runs + k.
Proof.
  intros k runs. induction runs as [|p [|q t] IH]; intro H; [congruence|cbn; lia|]. rewrite bump_cons. cbn [run_total]. specialize (IH ltac:(discriminate)).
  cbn [run_total] in IH. lia.
Qed.

Lemma bump_unroll : forall k runs d, runs <> [] -> unroll (bump k runs) = unroll runs ++ repeat (fst (last runs d)) k.
Proof.
  intros k runs d. induction runs as [|p [|q t] IH]; intro H; [congruence| |].
  - cbn. rewrite repeat_app, !app_nil_r. reflexivity.
  - rewrite bump_cons, !unroll_cons with (p := p), IH, app_assoc by discriminate. reflexivity.
Qed.

Lemma bump_pos : forall k z runs, alt z runs -> forall p, In p (bump k runs) -> 0 < snd p.
Proof.
  intros k z runs. revert z. induction runs as [|p [|q t] IH]; intros z A r Hr; [destruct Hr| |].
  - destruct Hr as [<-|[]]. cbn in *. lia.
  - rewrite bump_cons in Hr. cbn [alt] in A. destruct A as (_ & P & A). destruct Hr as [<-|Hr]; [exact P|]. apply (IH (fst p) A). exact Hr.
Qed.

Lemma last_unroll : forall runs z d e, alt z runs -> runs <> [] -> last (unroll runs) d = fst (last runs e).
Proof.
  induction runs as [|p t IH]; intros z d e A H; [congruence|]. rewrite unroll_cons. cbn [alt] in A. destruct A as (_ & P & A). destruct t as [|q t].
  - cbn. rewrite app_nil_r. destruct (snd p) as [|n]; [lia|]. clear. induction n as [|n IH]; [reflexivity|]. exact IH.
  - specialize (IH (fst p) d e A ltac:(discriminate)). change (last (p :: q :: t) e) with (last (q :: t) e). rewrite <- IH.
    assert (N : unroll (q :: t) <> []). { rewrite unroll_cons. cbn [alt] in A. destruct A as (_ & Pq & _). destruct (snd q); [lia|discriminate]. }
    clear - N. induction (repeat (fst p) (snd p)) as [|x l IH]; [reflexivity|]. cbn [List.app]. rewrite <- IH. destruct (l ++ unroll (q :: t)) eqn:E; [|reflexivity].
    apply app_eq_nil in E. tauto.
Qed.

Lemma last_app_ne : forall A (a b : list A) d, b <> [] -> last (a ++ b) d = last b d.
Proof.
  intros A a b d H. induction a as [|x a IH]; [reflexivity|]. cbn [List.app]. rewrite <- IH. destruct (a ++ b) eqn:E; [|reflexivity]. apply app_eq_nil in E. tauto.
Qed.

Lemma alt_at : forall runs z i a b, alt z runs -> at_ ((z, 1) :: runs) i a -> at_ ((z, 1) :: runs) (S i) b -> fst b <> fst a.
Proof.
  induction runs as [|p t IH]; intros z i a b A Ha Hb; [destruct i; discriminate|]. cbn [alt] in A. destruct A as (N & _ & A). destruct i as [|i].
  - injection Ha as <-. injection Hb as <-. exact N.
  - destruct i as [|i].
    + injection Ha as <-. change (at_ t 0 b) in Hb. apply (IH (fst p) 0 (fst p, 1) b A); [reflexivity|exact Hb].
    + apply (IH (fst p) (S i) a b A); [exact Ha|exact Hb].
Qed.

Lemma alt_firsts : forall z runs runs', map fst runs = map fst runs' -> forall p, alt z runs -> (forall q, In q runs' -> 0 < snd q) -> last runs p = last runs p -> alt z runs'.
Proof.
  intros z runs runs' E p A P _. revert z runs' E A P. induction runs as [|q t IH]; intros z [|q' t'] E A P; try discriminate; [exact I|].
  cbn [map] in E. injection E as E1 E2. cbn [alt] in *. destruct A as (N & _ & A). rewrite <- E1. split; [exact N|]. split; [apply P; now left|].
  apply IH; [exact E2|exact A|]. intros. apply P. now right.
Qed.

Lemma alternating_alt : forall runs d, runs <> [] -> alt (fst (last runs d)) runs -> alternating runs.
Proof.
  intros runs d H A i a b Ha Hb. destruct runs as [|p t]; [congruence|]. cbn [firstn] in *.
  destruct (Nat.lt_ge_cases (S i) (length (p :: t))) as [L|L].
  - unfold at_ in Ha, Hb. rewrite nth_error_app1 in Ha, Hb by lia. intro E. apply (alt_at (p :: t) _ (S i) a b A); [exact Ha|exact Hb|congruence].
  - pose proof (at_lt _ _ _ _ Hb) as L'. rewrite app_length in L'. cbn [length] in L, L'. assert (E : S i = length (p :: t)) by (cbn; lia).
    unfold at_ in Ha, Hb. rewrite E, nth_error_app2, Nat.sub_diag in Hb by lia. injection Hb as <-.
    rewrite nth_error_app1 in Ha by (cbn [length]; lia). cbn [alt] in A. destruct A as (N & _ & _).
    assert (La : a = last (p :: t) d).
    { clear - Ha E. cbn [length] in E. injection E as ->. revert p Ha. induction t as [|q t IH]; intros p Ha; [injection Ha as <-; reflexivity|]. apply (IH q). exact Ha. }
    rewrite La. congruence.
Qed.

Lemma row_spec : forall r, r <> [] ->
  (row_changes r = [] /\ forall x y, In x r -> In y r -> x = y) \/
  (exists runs, row_changes r <> [] /\ varies r /\ runs <> [] /\ rotation r (unroll runs) /\ alternating runs /\ (forall p, In p runs -> 0 < snd p) /\
     dd (map Z.of_nat (row_changes r)) (Z.of_nat (length r) + hd 0%Z (map Z.of_nat (row_changes r))) = map (fun p => Z.of_nat (snd p)) runs /\
     mapM (vget r) (row_changes r) = Ok (map fst runs)).
Proof.
  intros r Hr. unfold row_changes, where_true. rewrite (map2_roll differ r 0). set (z := last r 0).
  destruct (lin_runs r z 0) as (k & runs & E & W & A). rewrite W. rewrite Nat.add_0_l.
  destruct runs as [|p0 t] eqn:Er.
  - left. split; [reflexivity|]. unfold unroll in E. cbn in E. rewrite app_nil_r in E. rewrite E. intros x y Hx Hy. apply repeat_spec in Hx, Hy. congruence.
  - rewrite <- Er in *. assert (Hn : runs <> []) by (rewrite Er; discriminate). right.
    assert (U : unroll runs <> []). { rewrite Er, unroll_cons. rewrite Er in A. cbn [alt] in A. destruct A as (_ & Pq & _). destruct (snd p0); [lia|discriminate]. }
    assert (Z : fst (last runs (0, 0)) = z). { unfold z. rewrite E, last_app_ne by exact U. symmetry. apply (last_unroll runs z); assumption. }
    exists (bump k runs). split; [rewrite Er; discriminate|]. split.
    { exists (fst p0), z. split; [|split].
      - rewrite E. apply in_or_app. right. rewrite Er, unroll_cons. apply in_or_app. left. rewrite Er in A. cbn [alt] in A. destruct A as (_ & Pq & _).
        destruct (snd p0); [lia|now left].
      - unfold z. clear - Hr. destruct r as [|x r]; [congruence|]. clear Hr. revert x. induction r as [|y r IH]; intro x; [now left|]. right. apply IH.
      - rewrite Er in A. cbn [alt] in A. tauto. }
    split; [rewrite Er; destruct t; discriminate|]. split.
    { exists (repeat z k), (unroll runs). split; [exact E|]. rewrite (bump_unroll k runs (0, 0) Hn), Z. reflexivity. }
    split.
    { apply (alternating_alt _ (0, 0)); [rewrite Er; destruct t; discriminate|].
      assert (X : fst (last (bump k runs) (0, 0)) = z). { rewrite <- Z. clear. induction runs as [|p [|q t] IH]; [reflexivity|reflexivity|]. rewrite bump_cons.
        change (last (p :: q :: t) (0, 0)) with (last (q :: t) (0, 0)). rewrite <- IH. destruct (bump k (q :: t)) eqn:Eb; [destruct t; discriminate|reflexivity]. }
      rewrite X. apply (alt_firsts z runs (bump k runs)) with (p := (0, 0)); [symmetry; apply bump_fst|exact A|apply (bump_pos k z), A|reflexivity]. }
    split; [apply (bump_pos k z), A|]. split.
    + rewrite <- (dd_starts (bump k runs) k), bump_starts. f_equal. rewrite (bump_total k runs Hn), E, app_length, repeat_length, unroll_length.
      rewrite Er. cbn [starts map hd]. lia.
    + rewrite bump_fst. pose proof (start_labels runs z (repeat z k) A) as S. rewrite repeat_length in S. rewrite E at 1. exact S.
Qed.

(** ** All rows *)
Fixpoint boffs {A} (o : nat) (ls : list (list A)) : list nat := match ls with [] => [] | l :: t => o :: boffs (o + length l) t end.
Fixpoint bends {A} (o : nat) (ls : list (list A)) : list nat := match ls with [] => [] | l :: t => (o + length l - 1) :: bends (o + length l) t end.
Definition full {A} (ls : list (list A)) : Prop := Forall (fun l => l <> []) ls.

Lemma take_nat : forall A (l : list A) idx ns, Forall2 (fun z n => py_index (length l) z = Ok n) idx ns -> take l idx = mapM (vget l) ns.
Proof. intros A l idx ns F. unfold take. induction F as [|z n idx ns P F IH]; [reflexivity|]. cbn [mapM]. rewrite P. cbn [bind]. rewrite IH. reflexivity. Qed.

Lemma get_firsts : forall A (ls : list (list A)) pre d, full ls -> mapM (vget (pre ++ concat ls)) (boffs (length pre) ls) = Ok (map (fun l => hd d l) ls).
Proof.
  intros A ls. induction ls as [|l t IH]; intros pre d F; [reflexivity|]. inversion F as [|? ? N F']; subst. cbn [boffs mapM map concat]. destruct l as [|x l]; [congruence|].
  cbn [List.app hd]. rewrite vget_mid. cbn [bind]. specialize (IH (pre ++ x :: l) d F'). rewrite app_length in IH. rewrite <- app_assoc in IH. cbn [List.app] in IH. rewrite IH. reflexivity.
Qed.

Lemma list_snoc : forall A (l : list A) d, l <> [] -> exists b, l = b ++ [last l d] /\ length b = length l - 1.
Proof.
  intros A l d H. exists (removelast l). split; [apply app_removelast_last, H|]. pose proof (app_removelast_last d H) as E. apply (f_equal (@length A)) in E.
  rewrite app_length in E. cbn [length] in E. lia.
Qed.

Lemma get_lasts : forall A (ls : list (list A)) pre d, full ls -> mapM (vget (pre ++ concat ls)) (bends (length pre) ls) = Ok (map (fun l => last l d) ls).
Proof.
  intros A ls. induction ls as [|l t IH]; intros pre d F; [reflexivity|]. inversion F as [|? ? N F']; subst. cbn [bends mapM map concat].
  destruct (list_snoc A l d N) as (b & E & L). assert (V : vget (pre ++ l ++ concat t) (length pre + length l - 1) = Ok (last l d)).
  { rewrite E at 1. rewrite <- app_assoc, app_assoc. cbn [List.app]. replace (length pre + length l - 1) with (length (pre ++ b)); [apply vget_mid|].
    rewrite app_length. destruct l; [congruence|]. cbn [length] in *. lia. }
  rewrite V. cbn [bind]. specialize (IH (pre ++ l) d F'). rewrite app_length, <- app_assoc in IH. rewrite IH. reflexivity.
Qed.

Fixpoint put_nat {A} (ns : list nat) (vals l : list A) : list A :=
  match ns, vals with k :: ns', v :: vals' => put_nat ns' vals' (firstn k l ++ v :: skipn (S k) l) | _, _ => l end.

Lemma put_is_nat : forall A idx ns, forall (vals l : list A), Forall2 (fun z n => py_index (length l) z = Ok n /\ n < length l) idx ns -> put idx vals l = Ok (put_nat ns vals l).
Proof.
  intros A idx. induction idx as [|z idx IH]; intros ns vals l F; inversion F as [|? n ? ns' (P & L) F']; subst; [reflexivity|]. destruct vals as [|v vals]; [reflexivity|].
  cbn [put put_nat]. rewrite P. cbn [bind]. apply IH.
  assert (Q : length (firstn n l ++ v :: skipn (S n) l) = length l). { rewrite app_length. cbn [length]. rewrite firstn_length, skipn_length. lia. }
  rewrite Q. exact F'.
Qed.

Lemma put_blocks : forall A (ls : list (list A)) xs vs pre, length xs = length ls -> length vs = length ls ->
  put_nat (bends (length pre) (map (fun p => fst p ++ [snd p]) (combine ls xs))) vs (pre ++ concat (map (fun p => fst p ++ [snd p]) (combine ls xs))) =
  pre ++ concat (map (fun p => fst p ++ [snd p]) (combine ls vs)).
Proof.
  intros A ls. induction ls as [|l t IH]; intros [|x xs] [|v vs] pre Hx Hv; try discriminate; [reflexivity|]. cbn [combine map concat bends fst snd put_nat].
  set (rest := concat (map (fun p => fst p ++ [snd p]) (combine t xs))).
  assert (K : length pre + length (l ++ [x]) - 1 = length (pre ++ l)) by (rewrite !app_length; cbn [length]; lia). rewrite K.
  assert (E : firstn (length (pre ++ l)) (pre ++ (l ++ [x]) ++ rest) ++ v :: skipn (S (length (pre ++ l))) (pre ++ (l ++ [x]) ++ rest) = (pre ++ l ++ [v]) ++ rest).
  { replace (pre ++ (l ++ [x]) ++ rest) with ((pre ++ l) ++ x :: rest) by (rewrite <- !app_assoc; reflexivity).
    rewrite firstn_app, Nat.sub_diag, firstn_all. cbn [firstn]. rewrite app_nil_r.
    replace (S (length (pre ++ l))) with (length ((pre ++ l) ++ [x])) by (rewrite app_length; cbn [length]; lia).
    replace ((pre ++ l) ++ x :: rest) with (((pre ++ l) ++ [x]) ++ rest) by (rewrite <- app_assoc; reflexivity).
    rewrite skipn_app, skipn_all, Nat.sub_diag. cbn [skipn List.app]. rewrite <- !app_assoc. reflexivity. }
  rewrite E. injection Hx as Hx. injection Hv as Hv. specialize (IH xs vs (pre ++ l ++ [v]) Hx Hv).
  assert (Q : length (pre ++ l ++ [v]) = length pre + length (l ++ [x])) by (rewrite !app_length; cbn [length]; lia). rewrite Q in IH. unfold rest.
  rewrite IH. rewrite <- !app_assoc. reflexivity.
Qed.

(** The raw differences by blocks. *)
Lemma raw_app : forall a b e, b <> [] -> dd (a ++ b) e = dd a (hd 0%Z b) ++ dd b e.
Proof.
  induction a as [|x a IH]; intros b e H; [reflexivity|]. destruct b as [|y b]; [congruence|]. destruct a as [|w a].
  - cbn [List.app hd]. unfold dd. cbn [tl List.app map2]. reflexivity.
  - specialize (IH (y :: b) e H). unfold dd in *. cbn [List.app tl map2 hd] in *. rewrite IH. reflexivity.
Qed.

Lemma dd_end : forall ts e, ts <> [] -> dd ts e = dd (removelast ts) (last ts 0%Z) ++ [(e - last ts 0)%Z].
Proof.
  intros ts e H. rewrite (app_removelast_last 0%Z H) at 1. rewrite raw_app by discriminate. reflexivity.
Qed.

Definition inner (ts : list Z) : list Z := dd (removelast ts) (last ts 0%Z).

Lemma inner_length : forall ts, ts <> [] -> length (inner ts) = length ts - 1.
Proof.
  intros ts H. unfold inner, dd. rewrite map2_length. pose proof (app_removelast_last 0%Z H) as E. apply (f_equal (@length Z)) in E. rewrite app_length in E. cbn [length] in E.
  rewrite app_length. cbn [length]. destruct (removelast ts); cbn [tl length] in *; lia.
Qed.

Lemma raw_blocks : forall ls e, full ls -> exists xs, length xs = length ls /\ dd (concat ls) e = concat (map (fun p => fst p ++ [snd p]) (combine (map inner ls) xs)).
Proof.
  induction ls as [|l t IH]; intros e F; [exists []; split; reflexivity|]. inversion F as [|? ? N F']; subst. destruct t as [|l2 t].
  - exists [(e - last l 0)%Z]. split; [reflexivity|]. cbn [concat map combine fst snd]. rewrite !app_nil_r. apply dd_end, N.
  - destruct (IH e F') as (xs & L & E). eexists (_ :: xs). split; [cbn [length]; rewrite L; reflexivity|].
    change (concat (l :: l2 :: t)) with (l ++ concat (l2 :: t)). rewrite raw_app.
    + rewrite E, (dd_end l) by exact N. cbn [map combine concat fst snd]. reflexivity.
    + inversion F'; subst. destruct l2; [congruence|discriminate].
Qed.

Lemma bends_lengths : forall A B (ls : list (list A)) (ms : list (list B)) o, map (@length A) ls = map (@length B) ms -> bends o ls = bends o ms.
Proof. intros A B ls. induction ls as [|l t IH]; intros [|m ms] o E; try discriminate; [reflexivity|]. cbn [map] in E. injection E as E1 E2. cbn [bends]. rewrite E1. f_equal. apply IH, E2. Qed.

Lemma bends_lt : forall A (ls : list (list A)) o, full ls -> Forall (fun n => n < o + length (concat ls)) (bends o ls).
Proof.
  intros A ls. induction ls as [|l t IH]; intros o F; [constructor|]. inversion F as [|? ? N F']; subst. cbn [bends concat]. rewrite app_length. constructor.
  - destruct l; [congruence|]. cbn [length]. lia.
  - specialize (IH (o + length l) F'). eapply Forall_impl; [|exact IH]. cbn. intros. lia.
Qed.

(** The positions of the last entries as computed by rolling. *)
Lemma rolled_ends : forall A (ls : list (list A)) l0 o N, N = o + length (concat (l0 :: ls)) -> 0 < o + length l0 -> full (l0 :: ls) ->
  Forall2 (fun z n => py_index N z = Ok n) (map (fun i => (Z.of_nat i - 1)%Z) (boffs (o + length l0) ls) ++ [(-1)%Z]) (bends o (l0 :: ls)).
Proof.
  intros A ls. induction ls as [|l t IH]; intros l0 o N E P F.
  - cbn. cbn in E. rewrite app_nil_r in E. constructor; [|constructor]. unfold py_index. change (0 <=? -1)%Z with false. cbn iota. replace (0 <=? -1 + Z.of_nat N)%Z with true by lia. f_equal. lia.
  - cbn [boffs map List.app bends]. inversion F as [|? ? N0 F']; subst. inversion F' as [|? ? N1 F'']; subst. constructor.
    + unfold py_index. cbn [concat]. rewrite !app_length. assert (0 < length l) by (destruct l; [congruence|cbn; lia]).
      replace (0 <=? Z.of_nat (o + length l0) - 1)%Z with true by lia. replace (Z.of_nat (o + length l0) - 1 <? Z.of_nat (o + (length l0 + (length l + length (concat t)))))%Z with true by lia.
      f_equal. lia.
    + apply (IH l (o + length l0)); [cbn [concat]; rewrite !app_length; lia|lia|exact F'].
Qed.

(** Blocks of household indices. *)
Definition hblock (b : nat * list Z) : list nat := repeat (fst b) (length (snd b)).

Fixpoint chain (z : nat) (bs : list (nat * list Z)) : Prop :=
  match bs with [] => True | b :: t => fst b <> z /\ chain (fst b) t end.

Lemma where_false : forall n o rest, where_from o (repeat false n ++ rest) = where_from (o + n) rest.
Proof. induction n as [|n IH]; intros o rest; cbn [repeat List.app where_from]; [f_equal; lia|]. rewrite IH. f_equal. lia. Qed.

Lemma map2_same : forall x n rest, map2 differ (repeat x n ++ rest) (x :: repeat x n ++ rest) = repeat false n ++ map2 differ rest (x :: rest).
Proof.
  intros x n rest. induction n as [|n IH]; [reflexivity|]. cbn [repeat List.app]. change (map2 differ (x :: repeat x n ++ rest) (x :: x :: repeat x n ++ rest)) with (differ x x :: map2 differ (repeat x n ++ rest) (x :: repeat x n ++ rest)).
  rewrite IH. unfold differ. rewrite Nat.eqb_refl. reflexivity.
Qed.

Lemma block_starts : forall bs z o, chain z bs -> full (map snd bs) ->
  where_from o (map2 differ (concat (map hblock bs)) (z :: concat (map hblock bs))) = boffs o (map snd bs).
Proof.
  induction bs as [|b t IH]; intros z o C F; [reflexivity|]. cbn [map concat boffs] in *. inversion F as [|? ? N F']; subst. cbn [chain] in C. destruct C as (Nz & C).
  unfold hblock at 1 3. destruct b as [i ts]. cbn [fst snd] in *. destruct ts as [|t0 ts]; [congruence|]. cbn [length repeat List.app].
  change (map2 differ (i :: repeat i (length ts) ++ concat (map hblock t)) (z :: i :: repeat i (length ts) ++ concat (map hblock t))) with
    (differ i z :: map2 differ (repeat i (length ts) ++ concat (map hblock t)) (i :: repeat i (length ts) ++ concat (map hblock t))).
  rewrite map2_same. cbn [where_from]. unfold differ at 1. replace (i =? z) with false by lia. cbn [negb]. f_equal. rewrite where_false, IH by assumption. f_equal. lia.
Qed.

Fixpoint zblocks (i : nat) (rs : list (list nat)) : list (nat * list nat) :=
  match rs with [] => [] | r :: t => match row_changes r with [] => zblocks (S i) t | ts => (i, ts) :: zblocks (S i) t end end.

Lemma changes_zblocks : forall rs i, changes_from i rs = concat (map (fun b => map (fun j => (fst b, j)) (snd b)) (zblocks i rs)).
Proof.
  induction rs as [|r t IH]; intro i; [reflexivity|]. cbn [changes_from zblocks]. rewrite IH. destruct (row_changes r) as [|x l]; [reflexivity|]. reflexivity.
Qed.

Lemma zblocks_ge : forall rs i b, In b (zblocks i rs) -> i <= fst b /\ snd b <> [].
Proof.
  induction rs as [|r t IH]; intros i b H; [destruct H|]. cbn [zblocks] in H. destruct (row_changes r) as [|x l]; [specialize (IH _ _ H); split; [lia|apply IH]|].
  destruct H as [<-|H]; [cbn; split; [lia|discriminate]|]. specialize (IH _ _ H). split; [lia|apply IH].
Qed.

Definition bz (b : nat * list nat) : nat * list Z := (fst b, map Z.of_nat (snd b)).

Lemma chain_zblocks : forall rs i z, z < i -> chain z (map bz (zblocks i rs)).
Proof.
  induction rs as [|r t IH]; intros i z H; [exact I|]. cbn [zblocks]. destruct (row_changes r) as [|x l]; [apply IH; lia|]. cbn [map chain bz fst]. split; [lia|]. apply IH. lia.
Qed.

Lemma hs_blocks : forall bs, map fst (concat (map (fun b : nat * list nat => map (fun j => (fst b, j)) (snd b)) bs)) = concat (map hblock (map bz bs)).
Proof.
  induction bs as [|[i ts] t IH]; [reflexivity|]. cbn [map concat]. rewrite map_app, IH. f_equal. unfold hblock, bz. cbn [fst snd]. rewrite map_length, map_map. cbn [fst].
  induction ts as [|x ts IHt]; [reflexivity|]. cbn [map length repeat]. f_equal. exact IHt.
Qed.

Lemma ts_blocks : forall bs, map (fun p => Z.of_nat (snd p)) (concat (map (fun b : nat * list nat => map (fun j => (fst b, j)) (snd b)) bs)) = concat (map snd (map bz bs)).
Proof.
  induction bs as [|[i ts] t IH]; [reflexivity|]. cbn [map concat]. rewrite map_app, IH. f_equal. unfold bz. cbn [fst snd]. rewrite map_map. reflexivity.
Qed.

(** What is known of a row and its runs; constant rows have none yet. *)
Definition row_info (r : list nat) (runs : list (nat * nat)) : Prop :=
  (row_changes r = [] /\ (forall x y, In x r -> In y r -> x = y) /\ runs = []) \/
  (row_changes r <> [] /\ varies r /\ runs <> [] /\ rotation r (unroll runs) /\ alternating runs /\ (forall p, In p runs -> 0 < snd p) /\
     dd (map Z.of_nat (row_changes r)) (Z.of_nat (length r) + hd 0%Z (map Z.of_nat (row_changes r))) = map (fun p => Z.of_nat (snd p)) runs /\
     mapM (vget r) (row_changes r) = Ok (map fst runs)).

Lemma all_infos : forall w rs, 0 < w -> boxed w rs -> exists rrs, Forall2 row_info rs rrs.
Proof.
  intros w rs Hw H. induction rs as [|r rs IH]; [exists []; constructor|]. destruct IH as [rrs F]; [intros q Hq; apply H; now right|].
  assert (N : r <> []) by (specialize (H r (or_introl eq_refl)); destruct r; [cbn in H; lia|discriminate]).
  destruct (row_spec r N) as [(A & B)|(runs & Q)]; [exists ([] :: rrs)|exists (runs :: rrs)]; (constructor; [|exact F]); [left; auto|right; exact Q].
Qed.

Lemma block_durations : forall w rs rrs i, boxed w rs -> Forall2 row_info rs rrs ->
  concat (map (fun l => dd l (Z.of_nat w + hd 0%Z l)) (map snd (map bz (zblocks i rs)))) = map Z.of_nat (map snd (concat rrs)).
Proof.
  intros w rs rrs i H F. revert i H. induction F as [|r runs rs rrs P F IH]; intros i H; [reflexivity|]. cbn [zblocks concat].
  assert (Hs : boxed w rs) by (intros q Hq; apply H; now right). destruct P as [(A & _ & ->)|(A & _ & _ & _ & _ & _ & D & _)].
  - rewrite A. cbn [List.app]. apply IH, Hs.
  - specialize (H r (or_introl eq_refl)). rewrite H in D. destruct (row_changes r) as [|t0 ts] eqn:E; [congruence|].
    cbn [map concat]. unfold bz at 1 2. cbn [fst snd map hd] in *. rewrite D, (IH _ Hs), !map_app, !map_map. reflexivity.
Qed.

Lemma mapM_app : forall A B (f : A -> result B) l1 l2 o1 o2, mapM f l1 = Ok o1 -> mapM f l2 = Ok o2 -> mapM f (l1 ++ l2) = Ok (o1 ++ o2).
Proof.
  intros A B f l1. induction l1 as [|x l1 IH]; intros l2 o1 o2 H1 H2; cbn [mapM List.app] in *; [injection H1 as <-; exact H2|].
  destruct (f x) as [y|]; cbn [bind] in *; [|discriminate]. destruct (mapM f l1) as [o|] eqn:E; cbn [bind] in *; [|discriminate]. injection H1 as <-.
  rewrite (IH l2 o o2 eq_refl H2). reflexivity.
Qed.

Lemma block_labels : forall rs rrs pre, Forall2 row_info rs rrs ->
  mapM (fun p => bind (vget (pre ++ rs) (fst p)) (fun r => vget r (snd p))) (changes_from (length pre) rs) = Ok (map fst (concat rrs)).
Proof.
  intros rs rrs pre F. revert pre. induction F as [|r runs rs rrs P F IH]; intro pre; [reflexivity|]. cbn [changes_from concat]. rewrite map_app. apply mapM_app.
  - assert (E : mapM (vget r) (row_changes r) = Ok (map fst runs)) by (destruct P as [(A & _ & ->)|(_ & _ & _ & _ & _ & _ & _ & D)]; [rewrite A; reflexivity|exact D]).
    revert E. generalize (map fst runs). induction (row_changes r) as [|j l IHl]; intros o E; [exact E|]. cbn [map mapM fst snd] in *. rewrite vget_mid. cbn [bind].
    destruct (vget r j) as [y|]; cbn [bind] in *; [|discriminate]. destruct (mapM (vget r) l) as [o'|]; cbn [bind] in *; [|discriminate]. injection E as <-.
    rewrite (IHl o' eq_refl). reflexivity.
  - specialize (IH (pre ++ [r])). rewrite app_length in IH. cbn [length] in IH. replace (length pre + 1) with (S (length pre)) in IH by lia. rewrite <- app_assoc in IH. exact IH.
Qed.

Lemma constant_rows : forall w rs rrs, 0 < w -> boxed w rs -> Forall2 row_info rs rrs ->
  exists rss cs mask, mapM constant rs = Ok mask /\ mapM (fun r => match r with [] => Err IndexError | x :: _ => Ok x end) (compress mask rs) = Ok cs /\
    Forall2 runs_of rs rss /\ Permutation (concat rrs ++ map (fun c => (c, w)) cs) (concat rss).
Proof.
  intros w rs rrs Hw H F. induction F as [|r runs rs rrs P F IH].
  - exists [], [], []. repeat split; constructor.
  - destruct IH as (rss & cs & mask & M & C & R & S); [intros q Hq; apply H; now right|]. pose proof (H r (or_introl eq_refl)) as L.
    destruct r as [|x r]; [cbn in L; lia|]. cbn [mapM constant bind]. rewrite M. cbn [bind].
    destruct P as [(A & B & ->)|(A & (a & b & Ia & Ib & Nab) & N & Q1 & Q2 & Q3 & _ & _)].
    + assert (E : forallb (Nat.eqb x) (x :: r) = true) by (apply forallb_forall; intros y Hy; apply Nat.eqb_eq; apply B; [now left|exact Hy]).
      exists ([(x, w)] :: rss), (x :: cs), (true :: mask). rewrite E. split; [reflexivity|]. cbn [compress mapM bind]. rewrite C. cbn [bind]. split; [reflexivity|]. split.
      * constructor; [|exact R]. left. exists x. split; [discriminate|]. split; [intros y Hy; symmetry; apply B; [now left|exact Hy]|]. rewrite L. reflexivity.
      * cbn [concat map List.app]. rewrite <- S. symmetry. apply Permutation_middle.
    + assert (E : forallb (Nat.eqb x) (x :: r) = false). { destruct (forallb (Nat.eqb x) (x :: r)) eqn:E; [|reflexivity]. rewrite forallb_forall in E.
        apply E in Ia, Ib. apply Nat.eqb_eq in Ia, Ib. congruence. }
      exists (runs :: rss), cs, (false :: mask). rewrite E. split; [reflexivity|]. cbn [compress]. split; [exact C|]. split.
      * constructor; [|exact R]. right. auto.
      * cbn [concat]. rewrite <- app_assoc. apply Permutation_app_head, S.
Qed.

Lemma uniq_repeat : forall x n, 0 < n -> uniq Nat.compare (repeat x n) = [x].
Proof.
  intros x n H. destruct n as [|n]; [lia|]. clear H. induction n as [|n IH]; [reflexivity|]. change (uniq Nat.compare (repeat x (S (S n)))) with (uins Nat.compare x (uniq Nat.compare (repeat x (S n)))).
  rewrite IH. cbn [uins]. rewrite Nat.compare_refl. reflexivity.
Qed.

Lemma two_uniq : forall l a b, In a l -> In b l -> a <> b -> 1 < length (uniq Nat.compare l).
Proof.
  intros l a b Ha Hb N. apply (uniq_in nat_order) in Ha, Hb. destruct (uniq Nat.compare l) as [|x [|y u]]; cbn [length]; [destruct Ha| |lia].
  destruct Ha as [->|[]]. destruct Hb as [->|[]]. congruence.
Qed.

Lemma last_in : forall A (l : list A) d, l <> [] -> In (last l d) l.
Proof. intros A l d H. destruct (list_snoc A l d H) as (b & E & _). rewrite E at 2. apply in_or_app. right. now left. Qed.

Lemma hlast : forall bs d b0, bs <> [] -> full (map snd bs) -> last (concat (map hblock bs)) d = fst (last bs b0).
Proof.
  induction bs as [|b t IH]; intros d b0 H F; [congruence|]. inversion F as [|? ? N F']; subst. cbn [map concat]. destruct t as [|b' t].
  - cbn [map concat last]. rewrite app_nil_r. unfold hblock. destruct (snd b) as [|z l]; [congruence|]. cbn [length]. generalize (length l). intro n. induction n as [|n IHn]; [reflexivity|]. exact IHn.
  - rewrite last_app_ne.
    + rewrite (IH d b0) by (try discriminate; exact F'). reflexivity.
    + inversion F' as [|? ? N' _]; subst. cbn [map concat]. unfold hblock at 1. destruct (snd b'); [congruence|discriminate].
Qed.

Lemma firsts_are_offsets : forall rs, zblocks 0 rs <> [] -> let bs := map bz (zblocks 0 rs) in let hs := concat (map hblock bs) in
  (if 1 <? length (uniq Nat.compare hs) then where_true (map2 differ hs (roll_on hs)) else [0]) = boffs 0 (map snd bs).
Proof.
  intros rs H bs hs. pose proof (zblocks_ge rs 0) as G.
  assert (F : full (map snd bs)). { apply Forall_forall. intros l Hl. apply in_map_iff in Hl. destruct Hl as (b & <- & Hb). apply in_map_iff in Hb. destruct Hb as (c & <- & Hc).
    specialize (G c Hc). unfold bz. cbn. destruct (snd c); [tauto|discriminate]. }
  assert (Inc : forall rs i b t, zblocks i rs = b :: t -> t = [] \/ forall d, fst b < fst (last t d)).
  { clear. induction rs as [|r rs IH]; intros i b t E; [discriminate|]. cbn [zblocks] in E. destruct (row_changes r) as [|x l]; [eapply IH; exact E|]. injection E as <- <-.
    destruct (zblocks (S i) rs) as [|c u] eqn:Ez; [now left|]. right. intro d. rewrite <- Ez. assert (L : In (last (zblocks (S i) rs) d) (zblocks (S i) rs)) by (apply last_in; rewrite Ez; discriminate).
    apply zblocks_ge in L. cbn [fst]. lia. }
  destruct (zblocks 0 rs) as [|b [|b' t]] eqn:E; [congruence| |].
  - subst hs bs. cbn [map concat boffs]. rewrite app_nil_r. unfold hblock. rewrite uniq_repeat; [reflexivity|].
    inversion F as [|? ? N _]; subst. unfold bz; cbn [snd]; destruct (snd b); [cbn in N; congruence|cbn; lia].
  - destruct (Inc rs 0 b (b' :: t) E) as [|L]; [discriminate|].
    assert (U : 1 < length (uniq Nat.compare hs)).
    { apply (two_uniq hs (fst b) (fst b')).
      - subst hs bs. cbn [map concat]. apply in_or_app. left. inversion F as [|? ? N _]; subst. unfold hblock, bz; cbn [fst snd]. destruct (snd b); [cbn in N; congruence|]. cbn. now left.
      - subst hs bs. cbn [map concat]. apply in_or_app. right. apply in_or_app. left. inversion F as [|? ? _ F']; subst. inversion F' as [|? ? N _]; subst.
        unfold hblock, bz; cbn [fst snd]. destruct (snd b'); [cbn in N; congruence|]. cbn. now left.
      - pose proof (chain_zblocks rs 0) as C. assert (In b' (zblocks 0 rs)) by (rewrite E; right; now left). clear - E.
        enough (X : forall rs i b b' t, zblocks i rs = b :: b' :: t -> fst b < fst b') by (specialize (X rs 0 b b' t E); lia).
        clear. induction rs as [|r rs IH]; intros i b b' t E; [discriminate|]. cbn [zblocks] in E. destruct (row_changes r) as [|x l]; [eapply IH; exact E|]. injection E as <- E.
        assert (In b' (zblocks (S i) rs)) as Q by (rewrite E; now left). apply zblocks_ge in Q. cbn [fst]. lia. }
    apply Nat.ltb_lt in U. rewrite U. unfold where_true. rewrite (map2_roll differ hs 0). subst hs. apply block_starts; [|exact F].
    rewrite (hlast bs 0 (bz b)) by (try exact F; subst bs; discriminate).
    assert (Z : fst (last bs (bz b)) = fst (last (b' :: t) b)). { subst bs. cbn [map]. clear. revert b'. induction t as [|c t IH]; intro b'; [reflexivity|]. cbn [map]. specialize (IH c). exact IH. }
    rewrite Z. specialize (L b). subst bs. cbn [map chain]. split; [unfold bz; cbn [fst]; lia|].
    assert (Cn : chain (fst b) (map bz (b' :: t))).
    { clear - E. revert E. generalize 0. induction rs as [|r rs IH]; intros i E; [discriminate|]. cbn [zblocks] in E. destruct (row_changes r) as [|x l]; [eapply IH; exact E|].
      injection E as <- E. rewrite <- E. cbn [fst]. apply chain_zblocks. lia. }
    exact Cn.
Qed.

Lemma roll_dd : forall ts, map2 (fun b a => (b - a)%Z) (roll_back ts) ts = dd ts (hd 0%Z ts).
Proof. intros [|x t]; reflexivity. Qed.

Lemma dd_length : forall ts e, length (dd ts e) = length ts.
Proof. intros [|x t] e; [reflexivity|]. unfold dd. rewrite map2_length, app_length. cbn [length tl]. lia. Qed.

Theorem durations_main : forall w rs, 0 < w -> boxed w rs -> (exists r, In r rs /\ varies r) -> exists rss ds ls,
  get_states_durations (mkTable w rs) = Ok (map Z.of_nat ds, ls) /\ Forall2 runs_of rs rss /\ length ls = length ds /\ Permutation (combine ls ds) (concat rss).
Proof.
  intros w rs Hw H (r & Hr & V). destruct (all_infos w rs Hw H) as (rrs & I).
  assert (Hz : zblocks 0 rs <> []).
  { assert (Cr : row_changes r <> []).
    { destruct (row_spec r) as [(_ & B)|(? & ? & _)]; [specialize (H r Hr); destruct r; [cbn in H; lia|discriminate]| |assumption].
      destruct V as (a & b & Ia & Ib & N). specialize (B a b Ia Ib). congruence. }
    clear - Hr Cr. generalize 0. induction rs as [|q rs IH]; intro i; [destruct Hr|]. cbn [zblocks]. destruct Hr as [->|Hr].
    - destruct (row_changes r); [congruence|discriminate].
    - destruct (row_changes q); [apply IH, Hr|discriminate]. }
  destruct (constant_rows w rs rrs Hw H I) as (rss & cs & mask & M & C & R & S).
  set (Ls := map snd (map bz (zblocks 0 rs))).
  assert (F : full Ls). { apply Forall_forall. intros l Hl. unfold Ls in Hl. apply in_map_iff in Hl. destruct Hl as (b & <- & Hb). apply in_map_iff in Hb. destruct Hb as (c & <- & Hc).
    pose proof (zblocks_ge rs 0 c Hc) as G. unfold bz. cbn. destruct (snd c); [tauto|discriminate]. }
  exists rss, (map snd (concat rrs) ++ map (fun _ => w) cs), (map fst (concat rrs) ++ cs). split; [|split; [exact R|split]].
  - unfold get_states_durations. cbn [rows width]. pose proof (block_labels rs rrs [] I) as BL. cbn [length List.app] in BL. rewrite BL.
    rewrite (changes_zblocks rs 0), hs_blocks, ts_blocks. fold Ls. rewrite (firsts_are_offsets rs Hz). fold Ls. rewrite roll_dd.
    assert (Ne : Ls <> []) by (unfold Ls; destruct (zblocks 0 rs); [congruence|discriminate]).
    destruct Ls as [|l0 Lt] eqn:EL; [congruence|]. rewrite <- EL in *.
    assert (RE : Forall2 (fun z n => py_index (length (concat Ls)) z = Ok n) (roll_back (map (fun i => (Z.of_nat i - 1)%Z) (boffs 0 Ls))) (bends 0 Ls)).
    { rewrite EL. cbn [boffs map roll_back]. apply (rolled_ends _ Lt l0 0); [reflexivity| |rewrite <- EL; exact F]. rewrite EL in F. inversion F; subst. destruct l0; [congruence|cbn; lia]. }
    rewrite (take_nat _ _ _ _ RE). pose proof (get_lasts _ Ls [] 0%Z F) as GL. cbn [length List.app] in GL. rewrite GL. cbn [bind].
    assert (RF : Forall2 (fun z n => py_index (length (concat Ls)) z = Ok n) (map Z.of_nat (boffs 0 Ls)) (boffs 0 Ls)).
    { assert (X : Forall (fun n => n < 0 + length (concat Ls)) (boffs 0 Ls)).
      { clear - F. revert F. generalize 0. induction Ls as [|l t IH]; intros o F; [constructor|]. inversion F; subst. cbn [boffs concat]. rewrite app_length.
        assert (0 < length l) by (destruct l; [congruence|cbn; lia]). constructor; [lia|]. specialize (IH (o + length l) H2). eapply Forall_impl; [|exact IH]. cbn. intros. lia. }
      clear - X. induction X as [|n l P X IH]; cbn [map]; constructor; [|exact IH]. unfold py_index. replace (0 <=? Z.of_nat n)%Z with true by lia.
      replace (Z.of_nat n <? Z.of_nat (length (concat Ls)))%Z with true by lia. rewrite Nat2Z.id. reflexivity. }
    rewrite (take_nat _ _ _ _ RF). pose proof (get_firsts _ Ls [] 0%Z F) as GF. cbn [length List.app] in GF. rewrite GF. cbn [bind].
    set (e := hd 0%Z (concat Ls)). destruct (raw_blocks Ls e F) as (xs & Lx & Ex).
    set (vs := map2 (fun l f => (Z.of_nat w - l + f)%Z) (map (fun l => last l 0%Z) Ls) (map (fun l => hd 0%Z l) Ls)).
    assert (LV : vs = map (fun l => (Z.of_nat w - last l 0 + hd 0 l)%Z) Ls). { unfold vs. clear. induction Ls as [|l t IH]; [reflexivity|]. cbn [map map2]. f_equal. exact IH. }
    rewrite (put_is_nat _ _ (bends 0 Ls)).
    2:{ rewrite dd_length. pose proof (bends_lt _ Ls 0 F) as BL2. cbn [Nat.add] in BL2. clear - RE BL2. induction RE; constructor; inversion BL2; subst; auto. }
    cbn [bind]. rewrite M. cbn [bind]. rewrite C. cbn [bind]. rewrite map_app, (map_map (fun _ => w) Z.of_nat cs). f_equal. f_equal. f_equal.
    rewrite <- (block_durations w rs rrs 0 H I). fold Ls. rewrite Ex.
    assert (BE : bends 0 Ls = bends 0 (map (fun p => fst p ++ [snd p]) (combine (map inner Ls) xs))).
    { apply bends_lengths. clear - Lx F. revert xs Lx. induction F as [|l t N F IH]; intros [|x xs] L; try discriminate; [reflexivity|]. cbn [map combine fst snd]. injection L as L. rewrite <- (IH xs L).
      f_equal. rewrite app_length, inner_length by exact N. cbn [length]. destruct l; [congruence|cbn; lia]. }
    rewrite BE. pose proof (put_blocks Z (map inner Ls) xs vs []) as PB. cbn [length List.app] in PB. rewrite PB by (rewrite ?LV, !map_length; auto). rewrite LV.
    clear - F. f_equal. induction F as [|l t N F IH]; [reflexivity|]. cbn [map combine fst snd]. rewrite IH. f_equal. rewrite (dd_end l) by exact N. unfold inner. f_equal. f_equal. lia.
  - rewrite !app_length, !map_length. reflexivity.
  - rewrite <- S. assert (E : combine (map fst (concat rrs) ++ cs) (map snd (concat rrs) ++ map (fun _ => w) cs) = concat rrs ++ map (fun c => (c, w)) cs); [|rewrite E; reflexivity].
    clear. induction (concat rrs) as [|[a b] l IH]; cbn [map List.app combine fst snd]; [|f_equal; exact IH]. induction cs as [|c cs IHc]; [reflexivity|]. cbn [map combine]. f_equal. exact IHc.
Qed.

(** Without any transition there is no last index. *)
Lemma no_transition_err : forall w rs, (forall r, In r rs -> row_changes r = []) -> get_states_durations (mkTable w rs) = Err IndexError.
Proof.
  intros w rs H. unfold get_states_durations. cbn [rows width]. assert (E : forall i, changes_from i rs = []).
  { induction rs as [|r rs IH]; intro i; [reflexivity|]. cbn [changes_from]. rewrite (H r (or_introl eq_refl)), IH; [reflexivity|]. intros; apply H; now right. }
  rewrite E. reflexivity.
Qed.
