(** C70: slices of reference lists, and the operators they inherit. Which positions a slice takes is
    said in SliceSpec.v. *)
From Coq Require Import ZArith List Bool Lia Sorted.
From Verif Require Import Base RefList Slices SliceSpec SliceProofs.
Import ListNotations.
Open Scope Z_scope.

(** A step of zero is refused and nothing happens, for reading, deleting and assigning. *)
Theorem C70_step : forall l s xs r, In r [get_slice l s; del_slice l s; set_slice l s xs] ->
  step_of s = 0 -> se_error r = Some ValueErr /\ se_list r = l /\ se_marked r = false.
Proof.
  intros l s xs r Hr H. apply (indices_none (len l)) in H. unfold get_slice, del_slice, set_slice in Hr. rewrite H in Hr.
  destruct Hr as [<-|[<-|[<-|[]]]]; repeat split.
Qed.
Print Assumptions C70_step.

(** Deleting a slice leaves the objects at the other positions, in their order, and marks the owner. *)
Theorem C70_delete : forall load l s, step_of s <> 0 ->
  let r := del_slice l s in
  se_error r = None /\ se_marked r = true /\
  without (takes (len l) s) 0 (view load l) (view load (se_list r)).
Proof.
  intros load l s N r. unfold r, del_slice. assert (0 <= len l) as Hn by (unfold len; lia).
  destruct (slice_indices (len l) s) as [[[[start stop] step] count]|] eqn:E; [|apply indices_none in E; contradiction].
  destruct (positions_taken _ _ _ _ _ _ Hn E) as (_ & [Ht _] & _). cbn [se_error se_marked se_list].
  split; [reflexivity|]. split; [reflexivity|]. apply delete_without. intros k _. apply Ht.
Qed.
Print Assumptions C70_delete.

(** Assigning to a slice of step one puts the new objects in the place of the old. *)
Theorem C70_replace : forall load l s xs, step_of s = 1 ->
  let r := set_slice l s xs in
  se_error r = None /\ se_marked r = true /\
  exists p m q, l = p ++ m ++ q /\ view load (se_list r) = view load p ++ view load xs ++ view load q /\
    (forall k, takes (len l) s k <-> len p <= k < len p + len m) /\
    (m = [] -> len p = match sl_start s with Some x => Z.min (len l) (Z.max 0 (counted (len l) x)) | None => 0 end).
Proof.
  intros load l s xs N r. unfold r, set_slice. assert (0 <= len l) as Hn by (unfold len; lia).
  destruct (slice_indices (len l) s) as [[[[start stop] step] count]|] eqn:E; [|apply indices_none in E; lia].
  destruct (positions_taken _ _ _ _ _ _ Hn E) as (Es & [Ht _] & _). rewrite Es, N. cbn [Z.eqb]. cbn [Z.eqb Pos.eqb se_error se_marked se_list].
  split; [reflexivity|]. split; [reflexivity|].
  unfold slice_indices in E. fold (step_of s) in E. rewrite N in E. change (1 =? 0) with false in E. cbv zeta in E.
  change (1 <? 0) with false in E. cbv iota in E. injection E as Hs Hp _ Hc.
  assert (start = match sl_start s with Some x => Z.min (len l) (Z.max 0 (counted (len l) x)) | None => 0 end) as S1.
  { rewrite <- Hs. destruct (sl_start s) as [x|]; [|reflexivity]. rewrite (proj1 (adjust_spec (len l) 1 x Hn)); lia. }
  assert (0 <= start <= len l) as S2.
  { rewrite S1. destruct (sl_start s) as [x|]; lia. }
  assert (0 <= stop <= len l) as S3.
  { rewrite <- Hp. destruct (sl_stop s) as [x|]; [|lia]. rewrite (proj1 (adjust_spec (len l) 1 x Hn)); lia. }
  exists (firstn (Z.to_nat start) l), (firstn (Z.to_nat (Z.max start stop) - Z.to_nat start) (skipn (Z.to_nat start) l)),
    (skipn (Z.to_nat (Z.max start stop)) l).
  split.
  { rewrite <- (firstn_skipn (Z.to_nat start) l) at 1. f_equal.
    rewrite <- (firstn_skipn (Z.to_nat (Z.max start stop) - Z.to_nat start) (skipn (Z.to_nat start) l)) at 1. f_equal.
    rewrite skipn_twice. f_equal. lia. }
  split; [unfold view; now rewrite !map_app|].
  assert (len (firstn (Z.to_nat start) l) = start) as L1 by (unfold len in *; rewrite firstn_length; lia).
  assert (len (firstn (Z.to_nat (Z.max start stop) - Z.to_nat start) (skipn (Z.to_nat start) l)) = Z.max start stop - start) as L2
    by (unfold len in *; rewrite firstn_length, skipn_length; lia).
  rewrite L1, L2. split; [|intros _; exact S1]. intros k. rewrite <- Ht, in_positions, Es, N. rewrite Hs, Hp, Z.div_1_r in Hc. split.
  - intros (i & Hi & ->). destruct (Z.ltb_spec start stop); lia.
  - intros Hk. exists (k - start). destruct (Z.ltb_spec start stop); lia.
Qed.
Print Assumptions C70_replace.

(** Assigning to a slice of another step needs as many objects as it has positions; then each of
    these gets its object and the others keep theirs. Otherwise nothing happens. *)
Theorem C70_assign : forall load l s xs, step_of s <> 0 -> step_of s <> 1 ->
  exists ps, taken (len l) s ps /\
  let r := set_slice l s xs in
  (length xs = length ps -> se_error r = None /\ se_marked r = true /\ length (se_list r) = length l /\
    forall k d, 0 <= k < len l ->
      (forall i, nth_error ps i = Some k -> nth (Z.to_nat k) (view load (se_list r)) d = nth i (view load xs) d) /\
      (~ takes (len l) s k -> nth (Z.to_nat k) (view load (se_list r)) d = nth (Z.to_nat k) (view load l) d)) /\
  (length xs <> length ps -> se_error r = Some ValueErr /\ se_marked r = false /\ se_list r = l).
Proof.
  intros load l s xs N0 N1. assert (0 <= len l) as Hn by (unfold len; lia). unfold set_slice.
  destruct (slice_indices (len l) s) as [[[[start stop] step] count]|] eqn:E; [|apply indices_none in E; contradiction].
  destruct (positions_taken _ _ _ _ _ _ Hn E) as (Es & Tk & Cn & Lc). set (ps := slice_positions start step count) in *.
  exists ps. split; [exact Tk|]. destruct Tk as [Ht So]. cbv zeta. rewrite <- Es in N1.
  destruct (Z.eqb_spec step 1) as [|_]; [contradiction|].
  destruct (Z.eqb_spec (len xs) count) as [L|L]; cbn [se_error se_marked se_list]; unfold len in L, Lc; split; intros Hl; try lia.
  2:{ repeat split. }
  assert (map fst (combine ps xs) = ps) as Cf by (apply combine_fst; lia).
  destruct (assign_all (combine ps xs) l) as (L1 & A1 & A2).
  { rewrite Cf. exact (sorted_nodup _ _ So). }
  { intros k Hk. rewrite Cf in Hk. apply Ht in Hk. exact (proj1 Hk). }
  split; [reflexivity|]. split; [reflexivity|]. split; [exact L1|]. intros k d Hk. unfold len in Hk. unfold view.
  assert (forall m j (q : list entry) d0, (j < length q)%nat -> m = map (deref load) q -> nth j m d = deref load (nth j q d0)) as Nm.
  { intros m j q d0 Hj ->. rewrite (nth_indep _ d (deref load d0)) by (rewrite map_length; exact Hj). apply map_nth. }
  split.
  - intros i Hi. assert (i < length ps)%nat as Li by (apply nth_error_Some; congruence).
    rewrite (Nm _ (Z.to_nat k) _ ENone ltac:(rewrite L1; lia) eq_refl), (Nm _ i xs ENone ltac:(lia) eq_refl). f_equal.
    apply A1. rewrite <- (nth_error_nth ps i 0 Hi). rewrite <- (combine_nth ps xs i 0 ENone) by lia.
    apply nth_In. rewrite combine_length. lia.
  - intros Nk. rewrite (Nm _ (Z.to_nat k) _ ENone ltac:(rewrite L1; lia) eq_refl), (Nm _ (Z.to_nat k) l ENone ltac:(lia) eq_refl). f_equal.
    apply A2; [lia|]. rewrite Cf. intros I. apply Nk. now apply Ht.
Qed.
Print Assumptions C70_assign.

(** Reading a slice of a list that holds objects gives these; nothing is changed or marked. *)
Theorem C70_read : forall objs s, step_of s <> 0 -> let l := map EObj objs in
  exists ps, taken (len objs) s ps /\
    get_slice l s = {| se_list := l; se_error := None; se_marked := false;
      se_answer := map (fun k => EObj (nth (Z.to_nat k) objs 0)) ps |}.
Proof.
  intros objs s N l. assert (0 <= len l) as Hn by (unfold len; lia).
  assert (len l = len objs) as Ll by (unfold l, len; now rewrite map_length). unfold get_slice.
  destruct (slice_indices (len l) s) as [[[[start stop] step] count]|] eqn:E; [|apply indices_none in E; contradiction].
  destruct (positions_taken _ _ _ _ _ _ Hn E) as (_ & Tk & _). exists (slice_positions start step count).
  rewrite <- Ll. split; [exact Tk|]. f_equal. apply map_ext_in. intros k Hk. apply Tk in Hk. destruct Hk as [Hk _].
  unfold l in *. unfold len in Hk. rewrite (nth_indep _ ENone (EObj 0)) by lia. apply map_nth.
Qed.
Print Assumptions C70_read.

(** Of a list read from a file it gives the references: what one gets is not what a loop over the
    list gives. *)
Theorem C70_read_refuted : exists load l s e v, se_error (get_slice l s) = None /\ se_answer (get_slice l s) = [e] /\
  In (Ok (Some v)) (view load l) /\ deref load e = Ok (Some v) /\ e <> EObj v.
Proof.
  exists (fun i => Ok (Some (i * 10))), [ERef 1 3], {| sl_start := None; sl_stop := None; sl_step := None |}, (ERef 1 3), 30.
  split; [reflexivity|]. split; [reflexivity|]. split; [now left|]. split; [reflexivity|discriminate].
Qed.
Print Assumptions C70_read_refuted.

(** [+=] and [*=] change the list and do not mark the owner; the same through [extend] does. *)
Theorem C70_inplace_refuted : exists load l xs, se_list (iadd l xs) <> l /\ se_marked (iadd l xs) = false /\
  se_list (imul l 2) <> l /\ se_marked (imul l 2) = false /\
  le_list (list_call load l (LExtend xs)) = se_list (iadd l xs) /\ le_marked (list_call load l (LExtend xs)) = true.
Proof.
  exists (fun _ => Ok None), [EObj 1], [EObj 2]. repeat split; discriminate.
Qed.
Print Assumptions C70_inplace_refuted.

(** [l[-1:0:-2]], [del l[1:3]] and [l[4:2] = ...] on lists of five and seven. *)
Example C70_case :
  let back := {| sl_start := Some (-1); sl_stop := Some 0; sl_step := Some (-2) |} in
  let mid := {| sl_start := Some 1; sl_stop := Some 3; sl_step := None |} in
  let none := {| sl_start := Some 4; sl_stop := Some 2; sl_step := None |} in
  step_of back = -2 /\ se_answer (get_slice (map EObj [1; 2; 3; 4; 5; 6; 7]) back) = map EObj [7; 5; 3] /\
  se_list (set_slice (map EObj [1; 2; 3; 4; 5; 6; 7]) back (map EObj [70; 50; 30])) = map EObj [1; 2; 30; 4; 50; 6; 70] /\
  se_error (set_slice (map EObj [1; 2; 3]) back (map EObj [70; 50; 30])) = Some ValueErr /\
  se_list (del_slice (map EObj [1; 2; 3; 4; 5]) mid) = map EObj [1; 4; 5] /\
  se_list (set_slice (map EObj [1; 2; 3; 4; 5]) mid [EObj 9]) = map EObj [1; 9; 4; 5] /\
  se_list (set_slice (map EObj [1; 2; 3; 4; 5]) none [EObj 9]) = map EObj [1; 2; 3; 4; 9; 5] /\
  se_error (get_slice [EObj 1] {| sl_start := None; sl_stop := None; sl_step := Some 0 |}) = Some ValueErr.
Proof. repeat split. Qed.
