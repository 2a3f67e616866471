(** * The arrays of the durations, person by person. *)

From Coq Require Import List ZArith QArith Bool Lia Arith.
From Verif Require Import Prelude PreludeFacts SpecBase SpecBaseFacts Parse_Model Parse_Spec Parse_Proofs Parse_DurProofs Parse_TpmProofs
  Parse_SemiProofs Parse_GroupProofs Atus_Model Atus_Spec Atus_Proofs.
Import ListNotations.
Local Open Scope nat_scope.

Set Implicit Arguments.

(** Positions of the first and last lines of blocks of given lengths. *)
Fixpoint offs (o : nat) (ls : list nat) : list nat := match ls with [] => [] | c :: t => o :: offs (o + c) t end.
Fixpoint ends (o : nat) (ls : list nat) : list nat := match ls with [] => [] | c :: t => (o + c - 1) :: ends (o + c) t end.
Fixpoint pers (p : nat) (ls : list nat) : list nat := match ls with [] => [] | c :: t => repeat p c ++ pers (S p) t end.

Definition some_lines (ls : list nat) : Prop := Forall (fun c => 0 < c) ls.

Lemma uins_head : forall p k, uins Nat.compare p (seq (S p) k) = p :: seq (S p) k.
Proof. intros p [|k]; simpl; auto. rewrite (proj2 (Nat.compare_lt_iff p (S p))) by lia. auto. Qed.

Lemma uins_same : forall p l, uins Nat.compare p (p :: l) = p :: l.
Proof. intros. simpl. rewrite Nat.compare_refl. auto. Qed.

Lemma uniq_pers : forall ls p, some_lines ls -> uniq Nat.compare (pers p ls) = seq p (length ls).
Proof.
  induction ls as [|c ls IH]; intros p H; [reflexivity|]. inversion H as [|? ? Hc H']; subst. cbn [pers length seq].
  specialize (IH (S p) H'). unfold uniq in *. rewrite fold_right_app, IH. clear IH H H'.
  destruct c as [|c]; [lia|]. clear Hc. induction c as [|c IH]; [apply uins_head|].
  cbn [repeat fold_right] in *. rewrite IH. apply uins_same.
Qed.

Lemma is_eq_nat : forall x y, is_eq Nat.compare x y = (x =? y).
Proof. intros. apply is_eq_order; [apply nat_order|apply Nat.eqb_eq]. Qed.

Lemma index_repeat_ne : forall p q c l, q <> p -> index_in Nat.compare q (repeat p c ++ l) = c + index_in Nat.compare q l.
Proof.
  intros p q c l H. induction c as [|c IH]; simpl; auto. rewrite is_eq_nat. destruct (Nat.eqb_spec q p); [congruence|]. rewrite IH. auto.
Qed.

Lemma firsts_pers : forall ls p pre, some_lines ls -> (forall q, In q pre -> q < p) ->
  map (fun q => index_in Nat.compare q (pre ++ pers p ls)) (seq p (length ls)) = offs (length pre) ls.
Proof.
  induction ls as [|c ls IH]; intros p pre H Hp; [reflexivity|]. inversion H as [|? ? Hc H']; subst. cbn [pers length seq map offs].
  assert (Hpre : forall q l, ~ In q pre -> index_in Nat.compare q (pre ++ l) = length pre + index_in Nat.compare q l).
  { clear. intros q l. induction pre as [|x pre IH]; intro H; simpl; auto. rewrite is_eq_nat.
    destruct (Nat.eqb_spec q x) as [->|]; [exfalso; apply H; left; auto|]. rewrite IH; auto. intro; apply H; right; auto. }
  f_equal.
  - rewrite Hpre by (intro X; apply Hp in X; lia). destruct c as [|c]; [lia|]. simpl. rewrite is_eq_nat, Nat.eqb_refl. lia.
  - specialize (IH (S p) (pre ++ repeat p c) H'). rewrite app_length, repeat_length in IH. rewrite <- IH.
    + rewrite app_assoc. reflexivity.
    + intros q Hq. apply in_app_iff in Hq. destruct Hq as [Hq|Hq]; [apply Hp in Hq; lia|apply repeat_spec in Hq; lia].
Qed.

Lemma count_pers : forall ls p, (map (fun q => count_of Nat.compare q (pers p ls)) (seq p (length ls))) = ls.
Proof.
  assert (G : forall ls p q, q < p -> count_of Nat.compare q (pers p ls) = 0).
  { induction ls as [|c ls IH]; intros p q H; [reflexivity|]. cbn [pers]. unfold count_of in *. rewrite filter_app, app_length, IH by lia.
    clear IH. induction c as [|c IHc]; auto. cbn [repeat app filter] in *. rewrite is_eq_nat. destruct (Nat.eqb_spec q p); [lia|auto]. }
  induction ls as [|c ls IH]; intro p; [reflexivity|]. cbn [pers length seq map]. f_equal.
  - unfold count_of. rewrite filter_app, app_length. fold (count_of Nat.compare p (pers (S p) ls)). rewrite G by lia.
    clear. induction c as [|c IH]; auto. cbn [repeat app filter] in *. rewrite is_eq_nat, Nat.eqb_refl. simpl. lia.
  - rewrite <- (IH (S p)) at 2. apply map_ext_in. intros q Hq. apply in_seq in Hq. unfold count_of. rewrite filter_app, app_length.
    replace (length (filter (is_eq Nat.compare q) (repeat p c))) with 0; auto. clear - Hq.
    induction c as [|c IHc]; auto. cbn [repeat app filter] in *. rewrite is_eq_nat. destruct (Nat.eqb_spec q p); [lia|auto].
Qed.

Lemma first_lines_pers : forall ls, some_lines ls -> first_lines (pers 0 ls) = offs 0 ls.
Proof. intros ls H. unfold first_lines. rewrite uniq_pers by auto. apply (@firsts_pers ls 0 []); auto. intros q []. Qed.

Lemma line_counts_pers : forall ls, some_lines ls -> line_counts (pers 0 ls) = ls.
Proof. intros ls H. unfold line_counts, uniq_counts. rewrite map_map. cbn [snd]. rewrite uniq_pers by auto. apply count_pers. Qed.

Definition before_pos (len f : nat) : nat := match f with 0 => len - 1 | S g => g end.

Lemma rolled_pos : forall ls c o, some_lines (c :: ls) -> forall len,
  map (before_pos len) (offs (o + c) ls) ++ [o + nsum (c :: ls) - 1] = ends o (c :: ls).
Proof.
  induction ls as [|c' ls IH]; intros c o H len; inversion H as [|? ? Hc H']; subst.
  - simpl. f_equal. lia.
  - change (ends o (c :: c' :: ls)) with (o + c - 1 :: ends (o + c) (c' :: ls)). cbn [offs map app].
    replace (before_pos len (o + c)) with (o + c - 1) by (destruct (o + c) eqn:E; simpl; lia).
    f_equal. rewrite <- (IH c' (o + c) H' len). f_equal. f_equal. cbn [nsum]. lia.
Qed.

Lemma last_lines_pers : forall ls, ls <> [] -> some_lines ls -> last_lines (nsum ls) (offs 0 ls) ls = ends 0 ls.
Proof.
  intros [|c ls] Hne H; [congruence|]. unfold last_lines. cbn [offs map roll_back]. fold (before_pos (nsum (c :: ls))).
  change (match 0 with 0 => nsum (c :: ls) - 1 | S g => g end) with (0 + nsum (c :: ls) - 1).
  change (map (fun f => match f with 0 => nsum (c :: ls) - 1 | S g => g end) (offs (0 + c) ls)) with (map (before_pos (nsum (c :: ls))) (offs (0 + c) ls)).
  rewrite (rolled_pos 0 H). change (0 :: offs (0 + c) ls) with (offs 0 (c :: ls)).
  assert (G : forall ls o, some_lines ls -> map2 (fun fc l => if snd fc =? 1 then fst fc else l) (combine (offs o ls) ls) (ends o ls) = ends o ls).
  { clear. induction ls as [|c ls IH]; intros o H; [reflexivity|]. inversion H as [|? ? Hc H']; subst. cbn [offs ends combine map2 fst snd].
    rewrite IH by auto. f_equal. destruct (Nat.eqb_spec c 1); lia. }
  apply G; auto.
Qed.

(** ** Reading and writing at these positions *)

Definition some_blocks {A} (xss : list (list A)) : Prop := Forall (fun l => l <> []) xss.

Lemma blocks_lens : forall A (xss : list (list A)), some_blocks xss -> some_lines (map (@length A) xss).
Proof.
  intros A xss H. unfold some_lines. induction H as [|l xss Hl H IH]; simpl; constructor; auto. destruct l; [congruence|simpl; lia].
Qed.

Lemma take_at_app : forall A (arr : list A) ps qs, take_at arr (ps ++ qs) = bind (take_at arr ps) (fun x => bind (take_at arr qs) (fun y => Ok (x ++ y))).
Proof.
  intros A arr ps qs. unfold take_at. induction ps as [|p ps IH]; simpl.
  - destruct (mapM _ qs); reflexivity.
  - destruct (nth_error arr p); [|reflexivity]. simpl. rewrite IH. destruct (mapM _ ps); [|reflexivity]. simpl. destruct (mapM _ qs); reflexivity.
Qed.

Lemma take_firsts : forall A d (xss : list (list A)) pre, some_blocks xss ->
  take_at (pre ++ concat xss) (offs (length pre) (map (@length A) xss)) = Ok (map (hd d) xss).
Proof.
  intros A d. induction xss as [|l xss IH]; intros pre H; [reflexivity|]. inversion H as [|? ? Hl H']; subst.
  cbn [map offs concat]. destruct l as [|x l]; [congruence|].
  change (take_at (pre ++ (x :: l) ++ concat xss) (length pre :: offs (length pre + length (x :: l)) (map (@length A) xss)))
    with (take_at (pre ++ (x :: l) ++ concat xss) ([length pre] ++ offs (length pre + length (x :: l)) (map (@length A) xss))).
  rewrite take_at_app. specialize (IH (pre ++ (x :: l)) H'). rewrite <- app_assoc, app_length in IH. rewrite IH.
  unfold take_at. cbn [mapM]. rewrite nth_error_app2 by lia. rewrite Nat.sub_diag. reflexivity.
Qed.

Lemma take_lasts : forall A d (xss : list (list A)) pre, some_blocks xss ->
  take_at (pre ++ concat xss) (ends (length pre) (map (@length A) xss)) = Ok (map (fun l => last l d) xss).
Proof.
  intros A d. induction xss as [|l xss IH]; intros pre H; [reflexivity|]. inversion H as [|? ? Hl H']; subst.
  cbn [map ends concat]. specialize (IH (pre ++ l) H'). rewrite <- app_assoc, app_length in IH.
  change (take_at (pre ++ l ++ concat xss) ((length pre + length l - 1) :: ends (length pre + length l) (map (@length A) xss)))
    with (take_at (pre ++ l ++ concat xss) ([length pre + length l - 1] ++ ends (length pre + length l) (map (@length A) xss))).
  rewrite take_at_app, IH. unfold take_at. cbn [mapM].
  assert (E : nth_error (pre ++ l ++ concat xss) (length pre + length l - 1) = Some (last l d)).
  { assert (0 < length l) by (destruct l; [congruence|simpl; lia]). rewrite nth_error_app2 by lia. rewrite nth_error_app1 by lia.
    replace (length pre + length l - 1 - length pre) with (length l - 1) by lia. apply nth_last; auto. }
  rewrite E. reflexivity.
Qed.

Lemma set1_mid : forall A (pre : list A) x l v, set1 (length pre) v (pre ++ x :: l) = Ok (pre ++ v :: l).
Proof.
  intros A pre x l v. unfold set1. destruct (@upd_total _ (length pre) (fun _ : A => Ok v) (pre ++ x :: l) x v) as [l' E]; auto.
  { rewrite nth_error_app2 by lia. rewrite Nat.sub_diag. reflexivity. }
  rewrite E. f_equal. apply upd_ok in E. destruct E as (x0 & y & H1 & H2 & H3 & H4 & H5). injection H2 as <-.
  apply nth_list_ext. intro i. destruct (Nat.eq_dec i (length pre)) as [->|Hne].
  - rewrite H3, nth_error_app2 by lia. rewrite Nat.sub_diag. reflexivity.
  - rewrite H5 by auto. destruct (lt_dec i (length pre)).
    + rewrite !nth_error_app1 by lia. reflexivity.
    + rewrite !nth_error_app2 by lia. destruct (i - length pre) as [|j] eqn:Ej; [lia|]. reflexivity.
Qed.

Lemma put_firsts : forall A (xss : list (list A)) vs pre, some_blocks xss -> length vs = length xss ->
  put_all (combine (offs (length pre) (map (@length A) xss)) vs) (pre ++ concat xss) = Ok (pre ++ concat (map2 (fun v l => v :: tl l) vs xss)).
Proof.
  intros A. induction xss as [|l xss IH]; intros [|v vs] pre H L; simpl in L; try discriminate; [reflexivity|].
  inversion H as [|? ? Hl H']; subst. destruct l as [|x l]; [congruence|].
  cbn [map offs combine put_all concat map2 tl app]. rewrite set1_mid. cbn [bind].
  specialize (IH vs (pre ++ v :: l) H' ltac:(lia)). rewrite app_length in IH. cbn [length] in IH |- *. rewrite <- !app_assoc in IH. cbn [app] in IH. exact IH.
Qed.

Lemma put_lasts : forall A (xss : list (list A)) vs pre, some_blocks xss -> length vs = length xss ->
  put_all (combine (ends (length pre) (map (@length A) xss)) vs) (pre ++ concat xss) = Ok (pre ++ concat (map2 (fun v l => removelast l ++ [v]) vs xss)).
Proof.
  intros A. induction xss as [|l xss IH]; intros [|v vs] pre H L; simpl in L; try discriminate; [reflexivity|].
  inversion H as [|? ? Hl H']; subst. destruct (exists_last Hl) as (l0 & x & ->).
  cbn [map ends combine put_all concat map2 app]. rewrite removelast_last.
  replace (length pre + length (l0 ++ [x]) - 1) with (length (pre ++ l0)) by (rewrite !app_length; simpl; lia).
  replace (pre ++ (l0 ++ [x]) ++ concat xss) with ((pre ++ l0) ++ x :: concat xss) by (rewrite <- !app_assoc; reflexivity).
  rewrite set1_mid. cbn [bind]. specialize (IH vs (pre ++ l0 ++ [v]) H' ltac:(lia)). rewrite !app_length in IH. cbn [length] in IH.
  replace (length pre + length (l0 ++ [x])) with (length pre + (length l0 + 1)) by (rewrite app_length; simpl; lia).
  replace ((pre ++ l0) ++ v :: concat xss) with ((pre ++ l0 ++ [v]) ++ concat xss) by (rewrite <- !app_assoc; reflexivity).
  rewrite IH. f_equal. rewrite <- !app_assoc. reflexivity.
Qed.

(** ** Rolled arrays *)

Lemma roll_on_last : forall A (l : list A) d, l <> [] -> roll_on l = last l d :: removelast l.
Proof.
  intros A l d H. destruct (exists_last H) as (l0 & x & ->). unfold roll_on. rewrite rev_app_distr. cbn [rev app]. rewrite rev_involutive, removelast_last, last_last. auto.
Qed.

Lemma roll_on_blocks : forall A (xss : list (list A)) x, some_blocks xss ->
  exists yss, removelast (x :: concat xss) = concat yss /\ map (@length A) yss = map (@length A) xss /\ map (@tl A) yss = map (@removelast A) xss /\ some_blocks yss.
Proof.
  intros A. induction xss as [|l xss IH]; intros x H.
  - exists []. repeat split; constructor.
  - inversion H as [|? ? Hl H']; subst. destruct (exists_last Hl) as (l0 & z & ->).
    destruct (IH z H') as (yss & E1 & E2 & E3 & E4). exists ((x :: l0) :: yss). split.
    + cbn [concat]. replace (x :: (l0 ++ [z]) ++ concat xss) with ((x :: l0) ++ z :: concat xss) by (simpl; rewrite <- app_assoc; reflexivity).
      rewrite removelast_app by discriminate. rewrite E1. reflexivity.
    + cbn [map tl]. rewrite E2, E3, removelast_last. repeat split; auto.
      * f_equal. rewrite app_length. simpl. lia.
      * constructor; [discriminate|auto].
Qed.

Lemma roll_back_blocks : forall A (xss : list (list A)) x, xss <> [] -> some_blocks xss ->
  exists yss, tl (concat xss) ++ [x] = concat yss /\ map (@length A) yss = map (@length A) xss /\ map (@removelast A) yss = map (@tl A) xss /\ some_blocks yss.
Proof.
  intros A. induction xss as [|l xss IH]; intros x Hne H; [congruence|]. inversion H as [|? ? Hl H']; subst.
  destruct l as [|a l]; [congruence|]. destruct xss as [|m xss].
  - exists [l ++ [x]]. cbn [concat app tl map]. rewrite !app_nil_r, removelast_last. repeat split; auto.
    + rewrite app_length. simpl. f_equal. lia.
    + constructor; [destruct l; discriminate|constructor].
  - destruct (IH x ltac:(discriminate) H') as (yss & E1 & E2 & E3 & E4).
    destruct m as [|b m]; [inversion H' as [|? ? Hm _]; congruence|]. exists ((l ++ [b]) :: yss). split.
    + cbn [concat app tl] in *. rewrite <- E1. rewrite <- !app_assoc. cbn [app]. rewrite <- !app_assoc. reflexivity.
    + cbn [map tl] in *. rewrite E2, E3, removelast_last. repeat split; auto.
      * f_equal. rewrite app_length. simpl. lia.
      * constructor; [destruct l; discriminate|auto].
Qed.

(** ** The data of the lines *)

Definition second (l : list nat) : nat := if length l =? 1 then 0 else nth 1 l 0.

Lemma ends_of : forall A (f : nat * nat -> result nat) (tss : list (list nat)) pre,
  some_blocks tss -> (forall fc, f fc = if snd fc =? 1 then Ok 0 else match nth_error (pre ++ concat tss) (S (fst fc)) with Some e => Ok e | None => @Err nat A end) ->
  mapM f (combine (offs (length pre) (map (@length nat) tss)) (map (@length nat) tss)) = Ok (map second tss).
Proof.
  intros A f. induction tss as [|l tss IH]; intros pre H Hf; [reflexivity|]. inversion H as [|? ? Hl H']; subst.
  cbn [map offs combine mapM]. rewrite Hf. cbn [fst snd]. unfold second at 1. destruct (Nat.eqb_spec (length l) 1) as [E1|E1]; cbn [bind].
  - specialize (IH (pre ++ l) H'). rewrite app_length in IH. rewrite IH; [reflexivity|]. intro fc. rewrite Hf. cbn [concat]. rewrite <- app_assoc. reflexivity.
  - assert (E : nth_error (pre ++ concat (l :: tss)) (S (length pre)) = Some (nth 1 l 0)).
    { destruct l as [|a [|b l]]; [congruence|simpl in E1; lia|]. rewrite nth_error_app2 by lia. replace (S (length pre) - length pre) with 1 by lia. reflexivity. }
    rewrite E. cbn [bind]. specialize (IH (pre ++ l) H'). rewrite app_length in IH. rewrite IH; [reflexivity|].
    intro fc. rewrite Hf. cbn [concat]. rewrite <- app_assoc. reflexivity.
Qed.

Lemma map2_combine_concat : forall A B C (f : A -> B -> C) (xss : list (list A)) (yss : list (list B)),
  map (@length A) xss = map (@length B) yss ->
  map2 f (concat xss) (concat yss) = concat (map2 (map2 f) xss yss).
Proof.
  intros A B C f. induction xss as [|l xss IH]; intros [|m yss] H; simpl in H; try discriminate; [reflexivity|].
  injection H as H1 H2. cbn [concat map2]. rewrite <- IH by auto. clear IH H2.
  revert m H1. induction l as [|x l IH]; intros [|y m] H1; simpl in *; try discriminate; auto. rewrite IH by lia. auto.
Qed.

Lemma combine_concat : forall A B (xss : list (list A)) (yss : list (list B)), map (@length A) xss = map (@length B) yss ->
  combine (concat xss) (concat yss) = concat (map2 (@combine A B) xss yss).
Proof.
  intros A B. induction xss as [|l xss IH]; intros [|m yss] H; simpl in H; try discriminate; [reflexivity|].
  injection H as H1 H2. cbn [concat map2]. rewrite <- IH by auto. clear IH H2.
  revert m H1. induction l as [|x l IH]; intros [|y m] H1; simpl in *; try discriminate; auto. rewrite IH by lia. auto.
Qed.

Lemma compress_concat : forall A (mss : list (list bool)) (xss : list (list A)), map (@length bool) mss = map (@length A) xss ->
  compress (concat mss) (concat xss) = concat (map2 (@compress A) mss xss).
Proof.
  intros A. induction mss as [|l mss IH]; intros [|m xss] H; simpl in H; try discriminate; [reflexivity|].
  injection H as H1 H2. cbn [concat map2]. rewrite <- IH by auto. clear IH H2.
  revert m H1. induction l as [|x l IH]; intros [|y m] H1; simpl in *; try discriminate; auto. rewrite IH by lia. destruct x; auto.
Qed.

Lemma length_concat_nsum : forall A (xss : list (list A)), length (concat xss) = nsum (map (@length A) xss).
Proof. induction xss as [|l xss IH]; simpl; auto. rewrite app_length, IH. auto. Qed.

(** One block: times and states. *)
Definition olds_of (b : list (nat * nat)) : list nat := last (map snd b) 0 :: removelast (map snd b).
Definition durs_of (n : nat) (b : list (nat * nat)) : list nat := map2 Nat.sub (tl (map fst b) ++ [n + second (map fst b)]) (map fst b).
Definition flags_of (b : list (nat * nat)) : list bool := repeat true (length b - 1) ++ [hd 0 (map snd b) =? last (map snd b) 0].

Lemma map2_map_map : forall A B C D (f : A -> B -> C) (g : D -> A) (h : D -> B) l, map2 f (map g l) (map h l) = map (fun x => f (g x) (h x)) l.
Proof. induction l as [|x l IH]; simpl; auto. rewrite IH. auto. Qed.

Lemma map2_tl : forall A (vs : list A) yss (zs : list (list A)), map (@tl A) yss = zs -> length vs = length zs ->
  map2 (fun v l => v :: tl l) vs yss = map2 (fun v z => v :: z) vs zs.
Proof.
  induction vs as [|v vs IH]; intros yss zs H L; [reflexivity|]. destruct yss as [|y yss]; simpl in H; subst zs; [simpl in L; lia|].
  cbn [map2]. simpl in L. rewrite (IH yss (map (@tl A) yss)) by (auto; lia). auto.
Qed.

Lemma map2_removelast : forall A (vs : list A) yss (zs : list (list A)), map (@removelast A) yss = zs -> length vs = length zs ->
  map2 (fun v l => removelast l ++ [v]) vs yss = map2 (fun v z => z ++ [v]) vs zs.
Proof.
  induction vs as [|v vs IH]; intros yss zs H L; [reflexivity|]. destruct yss as [|y yss]; simpl in H; subst zs; [simpl in L; lia|].
  cbn [map2]. simpl in L. rewrite (IH yss (map (@removelast A) yss)) by (auto; lia). auto.
Qed.

Lemma blocks_map : forall A B (f : A -> B) (bs : list (list A)), some_blocks bs -> some_blocks (map (map f) bs).
Proof. intros A B f bs H. unfold some_blocks in *. induction H as [|b bs Hb H IH]; simpl; constructor; auto. destruct b; [congruence|discriminate]. Qed.

Lemma lens_map : forall A B (f : A -> B) (bs : list (list A)), map (@length B) (map (map f) bs) = map (@length A) bs.
Proof. intros. rewrite map_map. apply map_ext. intro l. apply map_length. Qed.

Lemma line_data_blocks : forall n (bs : list (list (nat * nat))), bs <> [] -> some_blocks bs ->
  line_data n (concat (map (map fst) bs)) (pers 0 (map (@length _) bs)) (concat (map (map snd) bs)) =
  Ok (concat (map olds_of bs), concat (map (durs_of n) bs), concat (map flags_of bs)).
Proof.
  intros n bs Hne Hb. set (ls := map (@length (nat * nat)) bs).
  assert (Hls : some_lines ls) by (apply blocks_lens; auto).
  assert (Lne : ls <> []) by (unfold ls; destruct bs; [congruence|discriminate]).
  pose proof (blocks_map fst Hb) as Hbt. pose proof (blocks_map snd Hb) as Hbx.
  pose proof (lens_map fst bs) as Lt. pose proof (lens_map snd bs) as Lx. fold ls in Lt, Lx.
  unfold line_data. rewrite first_lines_pers, line_counts_pers by auto.
  rewrite length_concat_nsum, Lx, last_lines_pers by auto.
  pose proof (take_firsts 0 [] Hbx) as T1. rewrite Lx in T1. cbn [app length] in T1. rewrite T1. cbn [bind].
  pose proof (take_lasts 0 [] Hbx) as T2. rewrite Lx in T2. cbn [app length] in T2. rewrite T2. cbn [bind].
  (* counted *)
  assert (Er : repeat true (length (concat (map (map fst) bs))) = concat (map (fun b : list (nat * nat) => repeat true (length b)) bs)).
  { rewrite length_concat_nsum, Lt. unfold ls. clear. induction bs as [|b bs IH]; simpl; auto. rewrite repeat_app, IH. auto. }
  rewrite Er.
  assert (Hbr : some_blocks (map (fun b : list (nat * nat) => repeat true (length b)) bs)).
  { unfold some_blocks in *. clear - Hb. induction Hb as [|b bs H1 H IH]; simpl; constructor; auto. destruct b; [congruence|discriminate]. }
  assert (Lr : map (@length bool) (map (fun b : list (nat * nat) => repeat true (length b)) bs) = ls).
  { unfold ls. rewrite map_map. apply map_ext. intro b. apply repeat_length. }
  set (merge := map2 Nat.eqb (map (hd 0) (map (map snd) bs)) (map (fun l => last l 0) (map (map snd) bs))).
  pose proof (@put_lasts _ _ merge [] Hbr) as T3. rewrite Lr in T3. cbn [app length] in T3. rewrite T3; clear T3.
  2:{ unfold merge. rewrite !map_map, map2_map_map, !map_length. auto. }
  cbn [bind].
  assert (Ef : map2 (fun v l => removelast l ++ [v]) merge (map (fun b : list (nat * nat) => repeat true (length b)) bs) = map flags_of bs).
  { unfold merge. rewrite !map_map, map2_map_map, map2_map_map. apply map_ext_in. intros b Hin. unfold flags_of. f_equal.
    unfold some_blocks in Hb. rewrite Forall_forall in Hb. specialize (Hb b Hin). destruct b as [|x b]; [congruence|]. cbn [length].
    replace (S (length b) - 1) with (length b) by lia. change (S (length b)) with (1 + length b). rewrite Nat.add_comm, repeat_app. cbn [repeat]. apply removelast_last. }
  rewrite Ef. clear Ef merge Er Hbr Lr.
  (* olds *)
  assert (Nx : concat (map (map snd) bs) <> []).
  { destruct bs as [|[|[t x] b] bs]; [congruence|inversion Hb; congruence|discriminate]. }
  rewrite (roll_on_last 0 Nx).
  destruct (@roll_on_blocks _ (map (map snd) bs) (last (concat (map (map snd) bs)) 0) Hbx) as (yss & Y1 & Y2 & Y3 & Y4).
  assert (E : last (concat (map (map snd) bs)) 0 :: removelast (concat (map (map snd) bs)) = concat yss).
  { rewrite <- Y1. destruct (concat (map (map snd) bs)); [congruence|reflexivity]. }
  rewrite E. clear E Y1. rewrite Lx in Y2.
  pose proof (@put_firsts _ yss (map (fun l => last l 0) (map (map snd) bs)) [] Y4) as T4. rewrite Y2 in T4. cbn [app length] in T4. rewrite T4; clear T4.
  2:{ rewrite !map_length. apply f_equal with (f := @length nat) in Y2. unfold ls in Y2. rewrite !map_length in Y2. auto. }
  cbn [bind]. rewrite (map2_tl _ _ Y3) by (rewrite !map_length; auto).
  assert (Eo : map2 (fun v z => v :: z) (map (fun l => last l 0) (map (map snd) bs)) (map (@removelast nat) (map (map snd) bs)) = map olds_of bs).
  { rewrite !map_map, map2_map_map. reflexivity. }
  rewrite Eo. clear Eo Y2 Y3 Y4 yss T1 T2.
  (* ends *)
  assert (T5 : mapM (fun fc => if snd fc =? 1 then Ok 0 else match nth_error (concat (map (map fst) bs)) (S (fst fc)) with Some e => Ok e | None => Err IndexError end) (combine (offs 0 ls) ls) = Ok (map second (map (map fst) bs))).
  { rewrite <- Lt. apply (@ends_of IndexError _ (map (map fst) bs) [] Hbt). intro fc. reflexivity. }
  rewrite T5. cbn [bind]. clear T5.
  destruct (concat (map (map fst) bs)) as [|t0 trest] eqn:Ec.
  { destruct bs as [|[|[t x] b] bs]; [congruence|inversion Hb; congruence|discriminate]. }
  cbn [roll_back].
  destruct (@roll_back_blocks _ (map (map fst) bs) t0) as (zss & Z1 & Z2 & Z3 & Z4); [destruct bs; [congruence|discriminate]|auto|].
  rewrite Ec in Z1. cbn [tl] in Z1. rewrite Z1. rewrite Lt in Z2.
  pose proof (@put_lasts _ zss (map (fun e => n + e) (map second (map (map fst) bs))) [] Z4) as T6. rewrite Z2 in T6. cbn [app length] in T6. rewrite T6; clear T6.
  2:{ rewrite !map_length. apply f_equal with (f := @length nat) in Z2. unfold ls in Z2. rewrite !map_length in Z2. auto. }
  cbn [bind]. rewrite (map2_removelast _ _ Z3) by (rewrite !map_length; auto). do 3 f_equal.
  rewrite <- Ec, map2_combine_concat.
  - f_equal. rewrite !map_map, map2_map_map, map2_map_map. reflexivity.
  - rewrite !map_map, map2_map_map, !map_map. apply map_ext_in. intros b Hin.
    unfold some_blocks in Hb. rewrite Forall_forall in Hb. specialize (Hb b Hin). destruct b as [|x b]; [congruence|].
    cbn [map tl]. rewrite app_length. simpl. lia.
Qed.
