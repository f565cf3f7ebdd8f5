From Verif Require Import Base AList PropCache.
Section PCP.
Context {V : Type}.
Implicit Types c : @pcache V.
Lemma pc_get_add c h p v h' p' :
  pc_get (pc_add c h p v) h' p' = if (h' =? h) && (p' =? p) then Some v else pc_get c h' p'.
Proof.
  unfold pc_get, pc_add, pc_row. rewrite aget_aset. destruct (h' =? h) eqn:E; cbn [andb]; [|reflexivity].
  rewrite aget_aset. replace h' with h by lia. destruct (p' =? p); [reflexivity|]. now destruct (aget h c).
Qed.
Lemma pc_get_remove c h p h' p' :
  pc_get (pc_remove c h p) h' p' = if (h' =? h) && ((p' =? p) || (p =? 0)) then None else pc_get c h' p'.
Proof.
  unfold pc_get, pc_remove. set (row := adel p (pc_row c h)).
  assert (R : aget p' row = if p' =? p then None else aget p' (pc_row c h)) by apply aget_adel.
  assert (R' : h' = h -> match aget h' c with Some m => aget p' m | None => None end = aget p' (pc_row c h)).
  { intros ->. unfold pc_row. now destruct (aget h c). }
  rewrite (N.eqb_sym 0 p).
  destruct (match row with [] => true | _ => false end || (p =? 0)) eqn:B.
  - rewrite aget_adel, aget_aset. destruct (h' =? h) eqn:E; cbn [andb]; [|reflexivity].
    rewrite R' by lia. destruct (p =? 0) eqn:P; [now rewrite orb_true_r|]. rewrite orb_false_r in *.
    destruct (p' =? p); [reflexivity|]. destruct row; [now rewrite <- R|discriminate].
  - apply orb_false_iff in B as [B1 B2]. rewrite B2, orb_false_r. rewrite aget_aset.
    destruct (h' =? h) eqn:E; cbn [andb]; [|reflexivity]. rewrite R' by lia. exact R.
Qed.
Lemma pc_get_step c o h p :
  pc_get (pcstep c o) h p = match eff h p o with Some x => x | None => pc_get c h p end.
Proof.
  destruct o as [h' p' v|h' l|h' p'|h' l|]; cbn [pcstep eff].
  - rewrite pc_get_add. destruct ((h =? h') && (p =? p')); reflexivity.
  - revert c. induction l as [|[p' v] r IH]; intros c; cbn [pc_add_list].
    + destruct (h =? h'); reflexivity.
    + rewrite IH, pc_get_add. destruct (h =? h'); cbn [andb]; [|reflexivity].
      match goal with |- match ?x with _ => _ end = _ => destruct x end; [reflexivity|]. now destruct (p =? p').
  - rewrite pc_get_remove. destruct ((h =? h') && _); reflexivity.
  - revert c. induction l as [|p' r IH]; intros c; cbn [pc_remove_list existsb].
    + rewrite andb_false_r. reflexivity.
    + rewrite IH, pc_get_remove. destruct (h =? h'); cbn [andb]; [|reflexivity].
      destruct ((p =? p') || (p' =? 0)); cbn [orb]; [now destruct (existsb _ r)|reflexivity].
  - reflexivity.
Qed.
Lemma pcrun_spec (l : list (pcop V)) h p : pc_get (pcrun l) h p = last_effect h p (rev l).
Proof.
  unfold pcrun. rewrite <- fold_left_rev_right. induction (rev l) as [|o r IH]; cbn [fold_right last_effect]; [reflexivity|].
  rewrite pc_get_step. rewrite IH. reflexivity.
Qed.
Lemma pc_get_list_spec c h l :
  let fn := pc_get_list c h l in
  map fst (fst fn) = filter (fun p => match pc_get c h p with Some _ => true | None => false end) (map fst l) /\
  (forall p v, In (p, v) (fst fn) -> pc_get c h p = Some v) /\
  snd fn = filter (fun q => match pc_get c h (fst q) with Some _ => false | None => true end) l.
Proof.
  cbv zeta. induction l as [|[p v] r (IH1 & IH2 & IH3)]; cbn [pc_get_list map filter fst snd]; [repeat split; contradiction|].
  destruct (pc_get_list c h r) as [f nf]. cbn [fst snd] in *.
  destruct (pc_get c h p) as [w|] eqn:E; cbn [fst snd map].
  - repeat split; [now rewrite IH1| |exact IH3]. intros p' v' [H|H]; [injection H as <- <-; exact E|auto].
  - repeat split; [exact IH1|exact IH2|now rewrite IH3].
Qed.
End PCP.
