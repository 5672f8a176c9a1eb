(** * C84: which lists and index lists are shared. *)
From Coq Require Import Lia.
From Verif Require Import Py PyFacts ConnProofs IndexList Conn IndexHeap IndexHeapSpec IndexHeapProofs.

(** ** C84.  In a disciplined program whose calls of [add_elems] succeed, the classes behave as if every variable
    had its own value: same outcome command by command, and every variable that was not given to a connectivity
    (and every connectivity) is the value it is then. *)
Theorem C84_by_value : forall p, disciplined p ->
  (forall i c t m index, nth_error p i = Some (CAddElems c t m index) -> exists v, nth_error (snd (run mem0 p)) i = Some (Ok v)) ->
  Forall2 same_outcome (snd (run mem0 p)) (snd (prun [] p)) /\
  List.length (vars (after p)) = List.length (fst (prun [] p)) /\
  forall x v, nth_error (fst (prun [] p)) x = Some v -> (forall k, In k p -> ~ gives k x) -> seen (after p) x v.
Proof.
  intros p D A. destruct (run_good p D) as (F & I).
  { intros i k Hi (c & t & m & ix & ->). eapply A. exact Hi. }
  split; [exact F|]. split; [exact (i_len _ _ _ _ I)|]. intros x v Hx G. unfold seen, after.
  assert (Lx := nth_some_lt _ _ _ Hx). rewrite <- (i_len _ _ _ _ I) in Lx. destruct (nth_error (vars (fst (run mem0 p))) x) as [w|] eqn:Ew; [|apply nth_error_None in Ew; lia].
  destruct w as [|l|o|c].
  - rewrite (i_none _ _ _ _ I x Ew) in Hx. injection Hx as <-. exact Coq.Init.Logic.I.
  - destruct (i_list _ _ _ _ I x l Ew) as (w & Hl & Hp). rewrite Hp in Hx. injection Hx as <-. exact Hl.
  - destruct (i_obj _ _ _ _ I x o Ew) as (il & Hp & Hv). rewrite Hp in Hx. injection Hx as <-. apply Hv. intros (k & Hin & Hk). exact (G k Hin Hk).
  - destruct (i_conn _ _ _ _ I x c Ew) as (n & d & d' & Hc & Hp & Hd). rewrite Hp in Hx. injection Hx as <-. exists d. split; assumption.
Qed.

(** A list is changed by its user only, an index list by the methods called on it (and by [add_elems] for the index
    list the connectivity holds for that type), a connectivity by its own [add_elems]. *)
Theorem C84_frame : forall s k, (forall x v, k <> CMut x v) ->
  (forall l w, nth_error (lists s) l = Some w -> nth_error (lists (fst (exec s k))) l = Some w) /\
  (forall o il, ~ receiver s k o -> view s o = Some il -> view (fst (exec s k)) o = Some il) /\
  (forall lc h, (forall c t m i, k = CAddElems c t m i -> nth_error (vars s) c <> Some (VConn lc)) -> nth_error (conns s) lc = Some h -> nth_error (conns (fst (exec s k))) lc = Some h).
Proof.
  intros s k N. split; [|split].
  - intros l w H. rewrite exec_lists. apply step_lists; assumption.
  - intros o il R H. unfold view in *. rewrite exec_objs, exec_lists. destruct (nth_error (objs s) o) as [r|] eqn:Eo; [|discriminate].
    rewrite (step_objs s k o r Eo R). rewrite <- H. apply view_rep_ext. intros l Hl.
    assert (L : exists w, nth_error (lists s) l = Some w). { destruct Hl as [-> | ->]; cbn in H; destruct (nth_error (lists s) l); try discriminate; eauto. }
    destruct L as (w & L). rewrite (step_lists s k l w N L). symmetry. exact L.
  - intros lc h R H. rewrite exec_push. cbn. destruct (step_effect s k); try exact H.
    + cbn. apply app1_some. exact H.
    + destruct (hadd2_cases s lc0 o n d t m) as (_ & _ & _ & d1 & -> & _). rewrite nth_upd_other; [exact H|]. intros ->. eapply R; eassumption.
    + destruct (hadd2_cases s1 lc0 (List.length (objs s)) n d t m) as (_ & _ & _ & d1 & -> & _). rewrite nth_upd_other; [exact H|]. intros ->. eapply R; eassumption.
Qed.

(** [list], [range], [shift] and [+] change no list, no index list (their operands included) and no connectivity. *)
Theorem C84_operands : forall s k, (exists y z i, k = CList y \/ k = CRange y \/ k = CShift y i \/ k = CAdd y z) ->
  (forall l w, nth_error (lists s) l = Some w -> nth_error (lists (fst (exec s k))) l = Some w) /\
  (forall o il, view s o = Some il -> view (fst (exec s k)) o = Some il) /\
  (forall lc h, nth_error (conns s) lc = Some h -> nth_error (conns (fst (exec s k))) lc = Some h).
Proof.
  intros s k H. destruct H as (y & z & i & Hk). assert (N : forall x v, k <> CMut x v) by (intros x v ->; destruct Hk as [Hk|[Hk|[Hk|Hk]]]; discriminate).
  destruct (C84_frame s k N) as (A & B & C). split; [exact A|]. split.
  - intros o il Hv. apply B; [|exact Hv]. intros [(y' & _ & Hr)|(c & t & m & i' & lc & n & d & m0 & Hr & _)].
    + destruct Hr as [(x & ->)|[(x & ->)|[(x & ->)| ->]]]; destruct Hk as [Hk|[Hk|[Hk|Hk]]]; discriminate.
    + subst k. destruct Hk as [Hk|[Hk|[Hk|Hk]]]; discriminate.
  - intros lc h Hl. apply C; [|exact Hl]. intros c t m i' ->. destruct Hk as [Hk|[Hk|[Hk|Hk]]]; discriminate.
Qed.

(** What [indexlist(irange=)], [shift], [+], [set_range] and [append] make belongs to the index list alone: whatever
    the program does afterwards (changes of any list by the user included) it stays, until a method that changes it
    is called, it is given to a connectivity, or [range()] hands out its list. *)
Theorem C84_own : forall p k q y il,
  (y = List.length p /\ (exists z i, k = CMakeRange z \/ k = CShift z i \/ exists z', k = CAdd z z')) \/
  ((forall k', In k' p -> ~ gives k' y) /\ exists x, k = CSetRange y x \/ k = CAppend y x) ->
  (exists v, nth_error (snd (run mem0 (p ++ [k]))) (List.length p) = Some (Ok v)) ->
  seen (after (p ++ [k])) y (PIdx il) ->
  (forall k', In k' q -> ~ changes k' y /\ k' <> CRange y) ->
  seen (after (p ++ [k] ++ q)) y (PIdx il).
Proof.
  intros p k q y il Hk (v & Hv) Hs Hq. rewrite app_assoc. assert (Eq : after ((p ++ [k]) ++ q) = fst (run (after (p ++ [k])) q)) by (unfold after; rewrite run_app; reflexivity).
  rewrite Eq. clear Eq. assert (E : after (p ++ [k]) = fst (exec (after p) k)) by (unfold after; rewrite run_snoc; reflexivity).
  destruct (run_linked (p ++ [k])) as (B1 & I1 & G1). destruct (run_linked p) as (B & I & G). assert (Lp := run_vars_len p).
  rewrite run_snoc in Hv. cbn [snd] in Hv. rewrite <- (run_out_len mem0 p) in Hv. rewrite nth_new in Hv. rewrite exec_push in Hv. cbn [snd] in Hv. fold (after p) in Hv. injection Hv as Hv.
  assert (O : exists o l r w, own (after (p ++ [k])) y o l r w).
  { assert (Hs' := Hs). unfold seen in Hs'. destruct (nth_error (vars (after (p ++ [k]))) y) as [[| |o|]|] eqn:Ey; try contradiction. clear Hs'.
    assert (Al : alone (after (p ++ [k])) y o).
    { split; [exact Ey|intros y' Hy; eapply I1; eassumption|]. intros c t He. destruct (G1 c t o y He Ey) as (k0 & Hin & Hg). apply in_app_or in Hin. destruct Hin as [Hin|[<-|[]]].
      - destruct Hk as [(-> & _)|(Hk & _)]; [|exact (Hk k0 Hin Hg)]. rewrite E in He. apply (proj1 (exec_entry _ _ _ _ _)) in He. apply step_entry in He.
        rewrite E in Ey. apply exec_new in Ey. rewrite Lp in Ey. destruct Ey as [Ey|(_ & [Ey|Ey])]; [apply nth_some_lt in Ey; lia|discriminate|]. assert (Ey' := Ey). apply step_ret in Ey'.
        destruct He as [(c' & t' & He)|[(y' & _ & Hy')|(Ha & _)]]; [apply (b_entry _ B) in He; lia|apply (b_obj _ B) in Hy'; lia|]. apply (add_ret _ _ _ Ha) in Ey. discriminate.
      - destruct Hg as (c0 & t0 & m0 & ->). destruct Hk as [(_ & z & i & [Hk|[Hk|(z' & Hk)]])|(_ & x & [Hk|Hk])]; discriminate. }
    assert (Fresh : forall o' r' w, nth_error (objs (after p)) o' = Some r' -> in_rep r' (List.length (lists (after p))) -> w = o').
    { intros o' r' w Ho Hr. apply (b_rep _ B o' r' _ Ho) in Hr. lia. }
    assert (NV : forall x, nth_error (vars (after (p ++ [k]))) x = Some (VList (List.length (lists (after p)))) -> (forall w, snd (step (after p) k) <> Ok (VList w)) -> False).
    { intros x Hx Hn. rewrite E in Hx. apply exec_new in Hx. destruct Hx as [Hx|(_ & [Hx|Hx])]; [apply (b_list _ B) in Hx; lia|discriminate|exact (Hn _ Hx)]. }
    assert (Eo : objs (after (p ++ [k])) = objs (fst (step (after p) k))) by (rewrite E; apply exec_objs).
    assert (El : lists (after (p ++ [k])) = lists (fst (step (after p) k))) by (rewrite E; apply exec_lists).
    assert (Ev := Ey). rewrite E in Ev. apply exec_new in Ev. rewrite Lp in Ev.
    destruct (step_effect (after p) k) as [r Hr|v0 Hk0|x v0 l -> Hx|Hk0|v0 r Hr Hw Hk0|x l -> Hx|y0 o0 v0 r Hy0 Hr Hw Hk0|y0 x o0 l -> Hy0 Hx|y0 o0 l -> Hy0 Ho|Hk0|c t m y0 o0 lc n d -> Hc Hl Hy0|c t m lc n d -> Hc Hl s1].
    - exfalso. destruct Hr as [(e & Hr)|(Hr & y0 & i & Hk0)]; [congruence|]. destruct Hk as [(-> & Hk)|(_ & x & [-> | ->])]; [|destruct Hk0; discriminate|destruct Hk0; discriminate].
      destruct Ev as [Ev|(_ & [Ev|Ev])]; [apply nth_some_lt in Ev; lia|discriminate|congruence].
    - exfalso. destruct Hk0 as [-> |(y0 & ->)]; destruct Hk as [(_ & z & i & [Hk|[Hk|(z' & Hk)]])|(_ & x & [Hk|Hk])]; discriminate.
    - exfalso. destruct Hk as [(_ & z & i & [Hk|[Hk|(z' & Hk)]])|(_ & x' & [Hk|Hk])]; discriminate.
    - exfalso. subst k. destruct Hk as [(_ & z & i & [Hk|[Hk|(z' & Hk)]])|(_ & x & [Hk|Hk])]; discriminate.
    - (* a new index list *)
      destruct Hk as [(-> & _)|(_ & x & Hk)]; [|destruct Hk0 as (y0 & i & [-> |[-> |(z & ->)]]); destruct Hk as [Hk|Hk]; discriminate].
      destruct Ev as [Ev|(_ & [Ev|Ev])]; [apply nth_some_lt in Ev; lia|discriminate|]. injection Ev as <-. cbn [objs lists] in Eo, El.
      exists (List.length (objs (after p))), (List.length (lists (after p))), r, v0. split.
      + exact Al.
      + rewrite Eo. apply nth_new.
      + destruct Hr as [-> | ->]; [left|right]; reflexivity.
      + rewrite El. apply nth_new.
      + intros x Hx. apply (NV x Hx). discriminate.
      + intros o' r' Ho Hr'. rewrite Eo in Ho. apply nth_snoc in Ho. destruct Ho as [Ho|(-> & _)]; [|reflexivity]. symmetry. eapply Fresh; eassumption.
    - exfalso. destruct Hk as [(_ & z & i & [Hk|[Hk|(z' & Hk)]])|(_ & x' & [Hk|Hk])]; discriminate.
    - (* a new list of the index list *)
      destruct Hk as [(-> & z & i & Hk)|(_ & x & Hk)].
      { destruct Hk0 as [(x & ->)|[(x & ->)| ->]]; destruct Hk as [Hk|[Hk|(z' & Hk)]]; discriminate. }
      assert (y0 = y) as -> by (destruct Hk0 as [(x' & ->)|[(x' & ->)| ->]]; destruct Hk as [Hk|Hk]; congruence).
      assert (o0 = o) as ->. { destruct Ev as [Ev|(-> & _)]; [congruence|]. apply nth_some_lt in Hy0. lia. }
      assert (Lo := b_obj _ B _ _ Hy0). cbn [objs lists] in Eo, El.
      exists o, (List.length (lists (after p))), r, v0. split.
      + exact Al.
      + rewrite Eo. apply nth_upd_same. exact Lo.
      + destruct Hr as [-> | ->]; [left|right]; reflexivity.
      + rewrite El. apply nth_new.
      + intros x0 Hx. apply (NV x0 Hx). discriminate.
      + intros o' r' Ho Hr'. rewrite Eo in Ho. destruct (Nat.eq_dec o' o) as [->|No]; [reflexivity|]. rewrite nth_upd_other in Ho by exact No. symmetry. eapply Fresh; eassumption.
    - exfalso. destruct Hk as [(_ & z & i & [Hk|[Hk|(z' & Hk)]])|(_ & x' & [Hk|Hk])]; discriminate.
    - exfalso. destruct Hk as [(_ & z & i & [Hk|[Hk|(z' & Hk)]])|(_ & x' & [Hk|Hk])]; discriminate.
    - exfalso. subst k. destruct Hk as [(_ & z & i & [Hk|[Hk|(z' & Hk)]])|(_ & x & [Hk|Hk])]; discriminate.
    - exfalso. destruct Hk as [(_ & z & i & [Hk|[Hk|(z' & Hk)]])|(_ & x' & [Hk|Hk])]; discriminate.
    - exfalso. destruct Hk as [(_ & z & i & [Hk|[Hk|(z' & Hk)]])|(_ & x' & [Hk|Hk])]; discriminate. }
  destruct O as (o & l & r & w & O). apply (own_seen _ _ _ _ _ _ O) in Hs. apply (own_seen _ _ _ _ _ _ (own_run _ q y o l r w B1 O Hq)). exact Hs.
Qed.

(** The list given to [indexlist(ilist=)] or [set_list] is kept, not copied: the user changes it and has changed the
    index list, until a method that changes the index list is called or it is given to a connectivity. *)
Theorem C84_follows : forall p k q x y v,
  (y = List.length p /\ k = CMakeList x) \/ ((forall k', In k' p -> ~ gives k' y) /\ k = CSetList y x) ->
  (exists r, nth_error (snd (run mem0 (p ++ [k]))) (List.length p) = Some (Ok r)) ->
  (forall k', In k' q -> ~ changes k' y) ->
  seen (after (p ++ [k] ++ q ++ [CMut x v])) y (PIdx (ILlist v)).
Proof.
  intros p k q x y v Hk (r & Hr) Hq. rewrite !app_assoc. assert (E2 : after (((p ++ [k]) ++ q) ++ [CMut x v]) = fst (exec (after ((p ++ [k]) ++ q)) (CMut x v))) by (unfold after; rewrite run_snoc; reflexivity).
  assert (Eq : after ((p ++ [k]) ++ q) = fst (run (after (p ++ [k])) q)) by (unfold after; rewrite run_app; reflexivity).
  assert (E : after (p ++ [k]) = fst (exec (after p) k)) by (unfold after; rewrite run_snoc; reflexivity).
  destruct (run_linked (p ++ [k])) as (B1 & I1 & G1). destruct (run_linked p) as (B & I & G). assert (Lp := run_vars_len p).
  rewrite run_snoc in Hr. cbn [snd] in Hr. rewrite <- (run_out_len mem0 p) in Hr. rewrite nth_new in Hr. rewrite exec_push in Hr. cbn [snd] in Hr. fold (after p) in Hr. injection Hr as Hr.
  assert (O : exists o l, nth_error (vars (after (p ++ [k]))) x = Some (VList l) /\ nth_error (vars (after (p ++ [k]))) y = Some (VObj o) /\ nth_error (objs (after (p ++ [k]))) o = Some (RList l)).
  { rewrite E, exec_push. cbn. rewrite step_vars, Hr. destruct Hk as [(-> & ->)|(_ & ->)]; cbn [step] in Hr |- *.
    - destruct (var_list (after p) x) as [l|e] eqn:Ex; [|discriminate]. apply var_list_ok in Ex. cbn in Hr |- *. injection Hr as <-. exists (List.length (objs (after p))), l.
      split; [apply app1_some; exact Ex|]. split; [rewrite <- Lp; apply nth_new|apply nth_new].
    - destruct (var_obj (after p) y) as [o|e] eqn:Ey; [|discriminate]. cbn [bind] in *. destruct (var_list (after p) x) as [l|e] eqn:Ex; [|discriminate]. apply var_list_ok in Ex. apply var_obj_ok in Ey. cbn in Hr |- *.
      exists o, l. split; [apply app1_some; exact Ex|]. split; [apply app1_some; exact Ey|]. apply nth_upd_same. exact (b_obj _ B _ _ Ey). }
  destruct O as (o & l & Hx & Hy & Ho).
  assert (Al : alone (after (p ++ [k])) y o).
  { split; [exact Hy|intros y' Hy'; eapply I1; eassumption|]. intros c t He. destruct (G1 c t o y He Hy) as (k0 & Hin & Hg). apply in_app_or in Hin. destruct Hin as [Hin|[<-|[]]].
    - destruct Hk as [(-> & ->)|(Hk & _)]; [|exact (Hk k0 Hin Hg)]. rewrite E in He. apply (proj1 (exec_entry _ _ _ _ _)) in He. apply step_entry in He.
      rewrite E in Hy. apply exec_new in Hy. rewrite Lp in Hy. destruct Hy as [Hy|(_ & [Hy|Hy])]; [apply nth_some_lt in Hy; lia|discriminate|]. apply step_ret in Hy.
      destruct He as [(c' & t' & He)|[(y' & _ & Hy')|((c' & t' & m' & i' & Ha) & _)]]; [apply (b_entry _ B) in He; lia|apply (b_obj _ B) in Hy'; lia|discriminate].
    - destruct Hg as (c0 & t0 & m0 & ->). destruct Hk as [(_ & Hk)|(_ & Hk)]; discriminate. }
  destruct (alone_run _ q y o (RList l) B1 Al Ho Hq) as (Al2 & Ho2). rewrite <- Eq in *. assert (Hx2 := run_var _ q x _ Hx). rewrite <- Eq in Hx2.
  assert (B2 := bounded_run q _ B1). rewrite <- Eq in B2. assert (Ll := b_list _ B2 _ _ Hx2).
  rewrite E2, exec_push. cbn [step]. unfold var_list. rewrite (find_some _ _ _ Hx2). cbn [bind try fst snd]. unfold seen. cbn [push vars set_lists].
  rewrite (app1_some _ _ _ _ (a_var _ _ _ Al2)). unfold view. cbn [push objs lists set_lists]. rewrite Ho2. cbn. rewrite nth_upd_same by exact Ll. reflexivity.
Qed.

(** [range()] hands out the list of the index list itself: the user changes what it returned and has changed the range. *)
Theorem C84_range_alias : forall p q y a b,
  (forall k', In k' p -> ~ gives k' y) ->
  (exists r, nth_error (snd (run mem0 (p ++ [CRange y]))) (List.length p) = Some (Ok r)) ->
  (forall k', In k' q -> ~ changes k' y) ->
  seen (after (p ++ [CRange y] ++ q ++ [CMut (List.length p) [a; b]])) y (PIdx (ILrange a b)).
Proof.
  intros p q y a b Hp (r & Hr) Hq. remember (CRange y) as k eqn:Ek. rewrite !app_assoc.
  assert (E2 : after (((p ++ [k]) ++ q) ++ [CMut (List.length p) [a; b]]) = fst (exec (after ((p ++ [k]) ++ q)) (CMut (List.length p) [a; b]))) by (unfold after; rewrite run_snoc; reflexivity).
  assert (Eq : after ((p ++ [k]) ++ q) = fst (run (after (p ++ [k])) q)) by (unfold after; rewrite run_app; reflexivity).
  assert (E : after (p ++ [k]) = fst (exec (after p) k)) by (unfold after; rewrite run_snoc; reflexivity).
  destruct (run_linked (p ++ [k])) as (B1 & I1 & G1). destruct (run_linked p) as (B & I & G). assert (Lp := run_vars_len p).
  rewrite run_snoc in Hr. cbn [snd] in Hr. rewrite <- (run_out_len mem0 p) in Hr. rewrite nth_new in Hr. rewrite exec_push in Hr. cbn [snd] in Hr. fold (after p) in Hr. injection Hr as Hr.
  assert (O : exists o l, nth_error (vars (after (p ++ [k]))) (List.length p) = Some (VList l) /\ nth_error (vars (after (p ++ [k]))) y = Some (VObj o) /\ nth_error (objs (after (p ++ [k]))) o = Some (RRange l)).
  { rewrite E, exec_push. cbn [fst push vars objs]. rewrite step_vars, Hr. rewrite Ek in Hr |- *. cbn [step] in Hr |- *. destruct (var_obj (after p) y) as [o|e] eqn:Ey; [|discriminate]. cbn [bind] in *. apply var_obj_ok in Ey.
    destruct (find (objs (after p)) o) as [[|l|l]|e] eqn:Eo; try discriminate. apply find_ok in Eo. cbn in Hr |- *. injection Hr as <-. exists o, l.
    split; [rewrite <- Lp; apply nth_new|]. split; [apply app1_some; exact Ey|exact Eo]. }
  destruct O as (o & l & Hx & Hy & Ho).
  assert (Al : alone (after (p ++ [k])) y o).
  { split; [exact Hy|intros y' Hy'; eapply I1; eassumption|]. intros c t He. destruct (G1 c t o y He Hy) as (k0 & Hin & Hg). apply in_app_or in Hin. destruct Hin as [Hin|[<-|[]]].
    - exact (Hp k0 Hin Hg).
    - destruct Hg as (c0 & t0 & m0 & Hg). congruence. }
  destruct (alone_run _ q y o (RRange l) B1 Al Ho Hq) as (Al2 & Ho2). rewrite <- Eq in *. assert (Hx2 := run_var _ q _ _ Hx). rewrite <- Eq in Hx2.
  assert (B2 := bounded_run q _ B1). rewrite <- Eq in B2. assert (Ll := b_list _ B2 _ _ Hx2).
  rewrite E2, exec_push. cbn [step]. unfold var_list. rewrite (find_some _ _ _ Hx2). cbn [bind try fst snd]. unfold seen. cbn [push vars set_lists].
  rewrite (app1_some _ _ _ _ (a_var _ _ _ Al2)). unfold view. cbn [push objs lists set_lists]. rewrite Ho2. cbn. rewrite nth_upd_same by exact Ll. reflexivity.
Qed.

(** A list of the user's own, and the list [list()] returns, is part of no index list: as long as it is not given to
    one, changing it changes no index list, no connectivity and no other variable. *)
Theorem C84_list_copy : forall p k q v, (exists y w, k = CList y \/ k = CNew w) ->
  (forall k', In k' q -> ~ keeps_list k' (List.length p)) ->
  let s := after (p ++ [k] ++ q) in let s' := after (p ++ [k] ++ q ++ [CMut (List.length p) v]) in
  (forall o, view s' o = view s o) /\ conns s' = conns s /\ forall y w, y <> List.length p -> nth_error (vars s) y <> None -> seen s y w -> seen s' y w.
Proof.
  intros p k q v Hk Hq. cbv zeta. rewrite !app_assoc. assert (E2 : after (((p ++ [k]) ++ q) ++ [CMut (List.length p) v]) = fst (exec (after ((p ++ [k]) ++ q)) (CMut (List.length p) v))) by (unfold after; rewrite run_snoc; reflexivity).
  assert (Eq : after ((p ++ [k]) ++ q) = fst (run (after (p ++ [k])) q)) by (unfold after; rewrite run_app; reflexivity).
  assert (E : after (p ++ [k]) = fst (exec (after p) k)) by (unfold after; rewrite run_snoc; reflexivity).
  destruct (run_linked (p ++ [k])) as (B1 & _ & _). destruct (run_linked p) as (B & _ & _). assert (Lp := run_vars_len p). set (x := List.length p) in *.
  assert (P : forall l, nth_error (vars (after ((p ++ [k]) ++ q))) x = Some (VList l) ->
     (forall y, nth_error (vars (after ((p ++ [k]) ++ q))) y = Some (VList l) -> y = x) /\ (forall o r, nth_error (objs (after ((p ++ [k]) ++ q))) o = Some r -> ~ in_rep r l)).
  { intros l Hl. assert (Hl1 : nth_error (vars (after (p ++ [k]))) x = Some (VList l)).
    { assert (L1 := run_vars_len (p ++ [k])). destruct (nth_error (vars (after (p ++ [k]))) x) as [w|] eqn:Ew.
      - assert (X := run_var _ q x w Ew). rewrite <- Eq in X. congruence.
      - apply nth_error_None in Ew. rewrite L1, app_length in Ew. cbn in Ew. unfold x in Ew. lia. }
    assert (P1 : (forall y, nth_error (vars (after (p ++ [k]))) y = Some (VList l) -> y = x) /\ (forall o r, nth_error (objs (after (p ++ [k]))) o = Some r -> ~ in_rep r l)).
    { rewrite E in *. assert (Hn := Hl1). apply exec_new in Hn. rewrite Lp in Hn. destruct Hn as [Hn|(_ & [Hn|Hn])]; [apply nth_some_lt in Hn; lia|discriminate|].
      assert (F : l = List.length (lists (after p)) /\ objs (fst (step (after p) k)) = objs (after p)).
      { destruct Hk as (y & w & [-> | ->]); cbn [step] in Hn |- *.
        - destruct (o <- var_obj (after p) y ;; obj_list (after p) o) as [u|e]; [|discriminate]. cbn in Hn |- *. split; [congruence|reflexivity].
        - cbn in Hn |- *. split; [congruence|reflexivity]. }
      destruct F as (-> & Fo). split.
      - intros y Hy. apply exec_new in Hy. rewrite Lp in Hy. destruct Hy as [Hy|(Hy & _)]; [apply (b_list _ B) in Hy; lia|exact Hy].
      - intros o r Ho Hr. rewrite exec_objs, Fo in Ho. apply (b_rep _ B _ _ _ Ho) in Hr. lia. }
    rewrite Eq in *. clear E2 Eq Hl. revert B1 Hl1 P1 Hq. clear. generalize (after (p ++ [k])) as s. induction q as [|k1 q IH]; intros s B Hx (P & Q) Hq; [split; assumption|]. cbn [run].
    assert (B1 := bounded_exec s k1 B). assert (Ll := b_list _ B _ _ Hx).
    assert (P' : forall y, nth_error (vars (fst (exec s k1))) y = Some (VList l) -> y = x).
    { intros y Hy. apply exec_new in Hy. destruct Hy as [Hy|(-> & [Hy|Hy])]; [auto|discriminate|]. apply step_ret in Hy. destruct Hy as [Hy|(y' & o & _ & _ & Ho)]; [lia|]. exfalso. exact (Q o _ Ho (or_introl eq_refl)). }
    assert (Q' : forall o r, nth_error (objs (fst (exec s k1))) o = Some r -> ~ in_rep r l).
    { intros o r Ho Hr. rewrite exec_objs in Ho. destruct (step_rep s k1 o r l Ho Hr) as [X|[X|(x' & X & Y)]]; [exact (Q o r X Hr)|lia|]. rewrite (P x' Y) in X. exact (Hq k1 (or_introl eq_refl) X). }
    assert (Hx1 : nth_error (vars (fst (exec s k1))) x = Some (VList l)) by (destruct (exec_vars s k1) as (w & ->); apply app1_some; exact Hx).
    destruct (exec s k1) as [s1 r1]. cbn [fst] in *. specialize (IH s1 B1 Hx1 (conj P' Q') (fun k' Hk' => Hq k' (or_intror Hk'))). destruct (run s1 q). exact IH. }
  rewrite E2, exec_push. set (s := after ((p ++ [k]) ++ q)) in *. cbn [step]. destruct (var_list s x) as [l|e] eqn:Ex; cbn [try fst snd].
  - apply var_list_ok in Ex. destruct (P l Ex) as (P1 & P2).
    assert (V : forall o, view (push (set_lists s (upd_nat (lists s) l v)) VNone) o = view s o).
    { intros o. unfold view. cbn. destruct (nth_error (objs s) o) as [r|] eqn:Eo; [|reflexivity]. apply view_rep_ext. intros l' Hl'. apply nth_upd_other. intros ->. exact (P2 o r Eo Hl'). }
    split; [exact V|]. split; [reflexivity|]. intros y w Ny Hy Hs. unfold seen in *. cbn [push vars set_lists] in *. destruct (nth_error (vars s) y) as [hv|] eqn:Ey; [|congruence]. rewrite (app1_some _ _ _ _ Ey).
    destruct hv as [|l'|o|c]; destruct w as [|w|il|ec]; try contradiction; try exact Hs.
    + cbn. rewrite nth_upd_other; [exact Hs|]. intros ->. apply Ny. apply P1. exact Ey.
    + rewrite V. exact Hs.
    + destruct Hs as (d & A & F). exists d. split; [exact A|]. eapply entry_ok_ext; [|exact F]. intros. apply V.
  - split; [reflexivity|]. split; [reflexivity|]. intros y w Ny Hy Hs. unfold seen in *. cbn [push vars] in *. destruct (nth_error (vars s) y) as [hv|] eqn:Ey; [|congruence]. rewrite (app1_some _ _ _ _ Ey). exact Hs.
Qed.

(** One index list in two connectivities: elements added to the one change the numbers of the other, whose array
    stays. *)
Theorem C84_shared : forall s c c' lc lc' n n' d d' t t' o m0 m0' m v il l,
  nth_error (vars s) c = Some (VConn lc) -> nth_error (conns s) lc = Some (n, d) -> dget String.eqb t d = Some (o, m0) ->
  nth_error (vars s) c' = Some (VConn lc') -> nth_error (conns s) lc' = Some (n', d') -> dget String.eqb t' d' = Some (o, m0') -> lc' <> lc ->
  view s o = Some il -> il_list il = Ok l ->
  snd (exec s (CAddElems c t m None)) = Ok v ->
  let s' := fst (exec s (CAddElems c t m None)) in
  nth_error (conns s') lc' = Some (n', d') /\ view s' o = Some (ILlist (l ++ zrange n (n + m_nrow m))).
Proof.
  intros s c c' lc lc' n n' d d' t t' o m0 m0' m v il l Hc Hl Hd Hc' Hl' Hd' N Hv Hil Hr. cbv zeta. rewrite exec_push in Hr. cbn [snd] in Hr. rewrite exec_push. cbn [fst].
  rewrite (step_add s c t m None lc n d Hc Hl) in *.
  assert (Lo : (o < List.length (objs s))%nat). { unfold view in Hv. destruct (nth_error (objs s) o) eqn:Eo; [|discriminate]. eapply nth_some_lt. exact Eo. }
  set (s1 := set_objs _ _) in *. unfold hadd2 in *. rewrite Hd in *. set (s2 := set_conns s1 _) in *.
  assert (L1 : obj_list s2 (List.length (objs s)) = Ok (zrange n (n + m_nrow m))).
  { unfold obj_list. cbn [s2 s1 set_conns set_objs set_lists objs lists]. rewrite (find_some _ _ _ (nth_new (objs s) _)). cbn [bind]. rewrite (find_some _ _ _ (nth_new (lists s) _)). cbn [bind].
    change (py_get [n; n + m_nrow m - 1] 0) with (@Ok Z n). change (py_get [n; n + m_nrow m - 1] 1) with (@Ok Z (n + m_nrow m - 1)). cbn [bind]. do 2 f_equal. lia. }
  assert (V2 : view s2 o = Some il).
  { rewrite <- Hv. unfold view. cbn [s2 s1 set_conns set_objs set_lists objs lists]. rewrite nth_app1 by exact Lo. destruct (nth_error (objs s) o) as [r|] eqn:Eo; [|reflexivity]. apply view_rep_ext.
    intros k Hk. apply nth_app1. unfold view in Hv. rewrite Eo in Hv. destruct Hk as [-> | ->]; cbn in Hv; destruct (nth_error (lists s) k) eqn:Ek; try discriminate; eapply nth_some_lt; exact Ek. }
  destruct (obj_list_view s2 o il V2) as (_ & L2). rewrite Hil in L2. rewrite L1, L2 in *. cbn [try] in *. unfold new_list in *. destruct (np_vcat m0 m) as [m'|e]; [|discriminate]. cbn [try fst snd] in *.
  cbn [push set_conns put_obj set_objs set_lists conns objs lists s2 s1]. split.
  - rewrite upd_nat_twice. rewrite nth_upd_other by exact N. exact Hl'.
  - unfold view. cbn. rewrite nth_upd_same by (rewrite app_length; cbn; lia). cbn. rewrite nth_new. reflexivity.
Qed.

(** A call of [add_elems] that fails leaves the number of elements increased; and when the arrays cannot be
    concatenated, the type has the numbers of elements it did not get. *)
Theorem C84_failed_add : forall s c lc n d t m i e,
  nth_error (vars s) c = Some (VConn lc) -> nth_error (conns s) lc = Some (n, d) ->
  match i with Some y => exists o, nth_error (vars s) y = Some (VObj o) | None => True end ->
  snd (exec s (CAddElems c t m i)) = Err e ->
  exists o m0, dget String.eqb t d = Some (o, m0) /\
  let s' := fst (exec s (CAddElems c t m i)) in
  nth_error (conns s') lc = Some (n + m_nrow m, d) /\
  (np_vcat m0 m = Err e -> i = None -> forall il l, view s o = Some il -> il_list il = Ok l -> view s' o = Some (ILlist (l ++ zrange n (n + m_nrow m)))).
Proof.
  intros s c lc n d t m i e Hc Hl Hi Hr. rewrite exec_push in Hr. cbn [snd] in Hr. rewrite exec_push. cbn [fst]. rewrite (step_add s c t m i lc n d Hc Hl) in *.
  assert (Lc := nth_some_lt _ _ _ Hl).
  assert (H : forall s1 ind, conns s1 = conns s -> snd (hadd2 s1 lc ind n d t m) = Err e -> exists o m0, dget String.eqb t d = Some (o, m0) /\
     nth_error (conns (fst (hadd2 s1 lc ind n d t m))) lc = Some (n + m_nrow m, d) /\
     (np_vcat m0 m = Err e -> forall il l l', view s1 o = Some il -> il_list il = Ok l -> obj_list s1 ind = Ok l' -> (o < List.length (objs s1))%nat -> view (fst (hadd2 s1 lc ind n d t m)) o = Some (ILlist (l ++ l')))).
  { intros s1 ind Ec He. unfold hadd2 in *. destruct (dget String.eqb t d) as [[o m0]|]; [|discriminate]. exists o, m0. split; [reflexivity|].
    set (s2 := set_conns s1 _) in *. assert (C2 : nth_error (conns s2) lc = Some (n + m_nrow m, d)) by (cbn; rewrite Ec; apply nth_upd_same; exact Lc).
    change (obj_list s2 ind) with (obj_list s1 ind) in *. change (obj_list s2 o) with (obj_list s1 o) in *.
    split.
    - destruct (obj_list s1 ind) as [l'|e1]; cbn [try fst]; [|exact C2]. destruct (obj_list s1 o) as [l0|e1]; cbn [try fst]; [|exact C2]. unfold new_list. cbn [try] in *. unfold new_list in He.
      destruct (np_vcat m0 m) as [m'|e1]; [discriminate|]. cbn [try fst]. exact C2.
    - intros Hn il l l' Hv Hil Hl' Lo. destruct (obj_list_view s1 o il Hv) as (_ & Ho). rewrite Hl', Ho, Hil. cbn [try]. unfold new_list. rewrite Hn. cbn [try fst]. unfold view. cbn.
      rewrite nth_upd_same by exact Lo. cbn. rewrite nth_new. reflexivity. }
  destruct i as [y|].
  - destruct Hi as (o0 & Hy). unfold var_obj in *. rewrite (find_some _ _ _ Hy) in *. cbn [bind] in *. destruct (H s o0 eq_refl Hr) as (o & m0 & A & B & _). exists o, m0. split; [exact A|]. cbv zeta. split; [exact B|]. discriminate.
  - set (s1 := set_objs _ _) in *. destruct (H s1 (List.length (objs s)) eq_refl Hr) as (o & m0 & A & B & C). exists o, m0. split; [exact A|]. cbv zeta. split; [exact B|]. intros Hn _ il l Hv Hil.
    assert (Lo : (o < List.length (objs s))%nat). { unfold view in Hv. destruct (nth_error (objs s) o) eqn:Eo; [|discriminate]. eapply nth_some_lt. exact Eo. }
    apply (C Hn il l (zrange n (n + m_nrow m))); [|exact Hil| |cbn; rewrite app_length; cbn; lia].
    + rewrite <- Hv. unfold view. cbn [s1 set_objs set_lists objs lists]. rewrite nth_app1 by exact Lo. destruct (nth_error (objs s) o) as [r|] eqn:Eo; [|reflexivity]. apply view_rep_ext.
      intros k Hk. apply nth_app1. unfold view in Hv. rewrite Eo in Hv. destruct Hk as [-> | ->]; cbn in Hv; destruct (nth_error (lists s) k) eqn:Ek; try discriminate; eapply nth_some_lt; exact Ek.
    + unfold obj_list. cbn [s1 set_objs set_lists objs lists]. rewrite (find_some _ _ _ (nth_new (objs s) _)). cbn [bind]. rewrite (find_some _ _ _ (nth_new (lists s) _)). cbn [bind].
      change (py_get [n; n + m_nrow m - 1] 0) with (@Ok Z n). change (py_get [n; n + m_nrow m - 1] 1) with (@Ok Z (n + m_nrow m - 1)). cbn [bind]. do 2 f_equal. lia.
Qed.
Print Assumptions C84_by_value.
Print Assumptions C84_frame.
Print Assumptions C84_operands.
Print Assumptions C84_own.
Print Assumptions C84_follows.
Print Assumptions C84_range_alias.
Print Assumptions C84_list_copy.
Print Assumptions C84_shared.
Print Assumptions C84_failed_add.

(** ** Cases *)
Definition heap_m2 : mat := Mat (Some 2%nat) [[0; 1]; [1; 2]].
Definition heap_m1 : mat := Mat (Some 2%nat) [[2; 3]].
Definition heap_m3 : mat := Mat (Some 3%nat) [[0; 1; 2]].
(** A program that shares nothing in a harmful way: x0 = [0, 1]; x1 = indexlist(irange=x0); x0 changed; x3 = x1.shift(10);
    c4; c4.add_elems with x1; c4.add_elems again without an index. *)
Definition heap_prog : list cmd :=
  [CNew [0; 1]; CMakeRange 0; CMut 0 [7; 7; 7]; CShift 1 10; CConn; CAddElems 4 "bar2" heap_m2 (Some 1%nat); CAddElems 4 "bar2" heap_m1 None; CList 3].
Example heap_prog_disciplined : disciplined heap_prog.
Proof.
  assert (Given : forall j x c t m, nth_error heap_prog j = Some (CAddElems c t m (Some x)) -> j = 5%nat /\ x = 1%nat).
  { intros j x c t m H. do 8 (destruct j as [|j]; [cbn in H; first [discriminate|injection H; auto]|]). destruct j; discriminate. }
  intros i k H. split.
  - intros x v ->. assert (i = 2%nat /\ x = 0%nat) as (-> & ->).
    { do 8 (destruct i as [|i]; [cbn in H; first [discriminate|injection H; auto]|]). destruct i; discriminate. }
    split; [|discriminate]. intros j k' L Hj. do 2 (destruct j as [|j]; [cbn in Hj; injection Hj as <-; intros [X|(y & X)]; discriminate|]). lia.
  - intros x Hx j k' L Hj (c & t & m & ->). destruct (Given _ _ _ _ _ Hj) as (-> & ->). do 6 (destruct i as [|i]; [lia|]).
    do 2 (destruct i as [|i]; [cbn in H; injection H as <-; destruct Hx as [Hx|[]]; discriminate|]). destruct i; discriminate.
Qed.
Example heap_prog_runs : snd (run mem0 heap_prog) = [Ok (VList 0); Ok (VObj 0); Ok VNone; Ok (VObj 1); Ok (VConn 0); Ok VNone; Ok VNone; Ok (VList 5)] /\
  fst (prun [] heap_prog) = [PList [7; 7; 7]; PIdx (ILrange 0 1); PNone; PIdx (ILrange 10 11);
    PConn (EC 3 [("bar2", ED (ILlist [0; 1; 2]) (Mat (Some 2%nat) [[0; 1]; [1; 2]; [2; 3]]))]); PNone; PNone; PList [10; 11]].
Proof. split; reflexivity. Qed.
Example heap_prog_seen : seen (after heap_prog) 3 (PIdx (ILrange 10 11)) /\
  seen (after heap_prog) 4 (PConn (EC 3 [("bar2", ED (ILlist [0; 1; 2]) (Mat (Some 2%nat) [[0; 1]; [1; 2]; [2; 3]]))])).
Proof.
  assert (H := C84_by_value heap_prog heap_prog_disciplined). destruct H as (_ & _ & H).
  - intros i c t m ix Hi. rewrite (proj1 heap_prog_runs). do 8 (destruct i as [|i]; [cbn in Hi; first [discriminate|exists VNone; reflexivity]|]). destruct i; discriminate.
  - split; apply H; try reflexivity; intros k Hk (c & t & m & ->); repeat (destruct Hk as [Hk|Hk]; [try discriminate|]); try contradiction; injection Hk; discriminate.
Qed.
(** The hypothesis of discipline matters: with [indexlist(ilist=x)] the same change of x is seen. *)
Example heap_alias : let p := [CNew [4; 6]; CMakeList 0; CMut 0 [9]; CList 1] in
  seen (after p) 3 (PList [9]) /\ nth_error (fst (prun [] p)) 3 = Some (PList [4; 6]).
Proof. split; vm_compute; reflexivity. Qed.
(** After [append] the list of the user and the index list are apart (C84_own), before it they are not (C84_follows). *)
Example heap_append : let p := [CNew [4; 6]; CMakeList 0; CNew [1]; CAppend 1 2; CMut 0 [9]; CMut 2 [9]; CList 1] in seen (after p) 6 (PList [4; 6; 1]).
Proof. vm_compute. reflexivity. Qed.
Example heap_range : let p := [CNew [0; 3]; CMakeRange 0; CRange 1; CMut 2 [5; 6]; CList 1] in seen (after p) 4 (PList [5; 6]).
Proof. vm_compute. reflexivity. Qed.
(** One index list in two connectivities, then a third element for the first: the second has three numbers for two rows. *)
Example heap_shared : let p := [CNew [0; 1]; CMakeRange 0; CConn; CConn; CAddElems 2 "bar2" heap_m2 (Some 1%nat); CAddElems 3 "bar2" heap_m2 (Some 1%nat); CAddElems 2 "bar2" heap_m1 None] in
  seen (after p) 3 (PConn (EC 2 [("bar2", ED (ILlist [0; 1; 2]) heap_m2)])).
Proof. vm_compute. exists [("bar2", (0%nat, heap_m2))]. split; [reflexivity|]. repeat constructor. Qed.
(** A failed call: one row of three nodes for a type with rows of two; then a good call. *)
Example heap_failed : let p := [CConn; CAddElems 0 "bar2" heap_m2 None; CAddElems 0 "bar2" heap_m3 None; CAddElems 0 "bar2" heap_m1 None] in
  nth_error (snd (run mem0 p)) 2 = Some (Err ValueError) /\
  seen (after p) 0 (PConn (EC 4 [("bar2", ED (ILlist [0; 1; 2; 3]) (Mat (Some 2%nat) [[0; 1]; [1; 2]; [2; 3]]))])).
Proof. split; [vm_compute; reflexivity|]. vm_compute. eexists. split; [reflexivity|]. repeat constructor. Qed.
