(** * C60: extracting cells from a VTK grid. *)
From Coq Require Import Permutation Sorted Lia.
From Verif Require Import Py PyFacts ConnProofs Conn Mesh Vtk VtkSpec VtkProofs.

(** Cell numbers of a grid of [cs], and the cell with a number. *)
Definition is_cell (cs : list (Z * list Z)) (id : Z) (c : Z * list Z) : Prop :=
  0 <= id /\ nth_error cs (Z.to_nat id) = Some c.

Lemma is_cell_sel cs ids : (forall id, In id ids -> exists c, is_cell cs id c) ->
  Forall (fun id => 0 <= id < zlen cs) ids.
Proof.
  intros H. apply Forall_forall. intros id Hid. destruct (H id Hid) as (c & H0 & Hc).
  assert (Hne : nth_error cs (Z.to_nat id) <> None) by congruence. apply nth_error_Some in Hne. unfold zlen. lia.
Qed.

(** The extracted grid has, in the order asked for, one cell per number, of the same type and with
    the same vertex positions; its points are the points used, each once.  Nothing of the
    uninitialised memory is left, and the order in which Python lists a set does not matter. *)
Theorem C60_extract : forall P enum junk (g : grid P) cs ids,
  set_enum enum -> grid_of g cs -> vertices_ok g cs ->
  ids <> [] ->
  (forall id, In id ids -> exists c, is_cell cs id c /\ zlen (snd c) <= 255) ->
  (forall id r c, ids = id :: r -> is_cell cs id c -> zlen (snd c) <= 254) ->
  exists g' cs' used,
    extract_cells enum junk g ids = Ok g' /\ grid_of g' cs' /\ vertices_ok g' cs' /\
    Forall2 (fun id c' => exists c, is_cell cs id c /\ same_cell g g' c c') ids cs' /\
    NoDup used /\
    (forall v, In v used <-> exists id c, In id ids /\ is_cell cs id c /\ In v (snd c)) /\
    List.map Some (g_points g') = List.map (position g) used.
Proof.
  intros P enum junk g cs ids Henum Hg Hv Hne Hids Hfirst.
  assert (Hr : Forall (fun id => 0 <= id < zlen cs) ids).
  { apply is_cell_sel. intros id Hid. destruct (Hids id Hid) as (c & Hc & _). exists c. exact Hc. }
  destruct (selected cs ids Hr) as (sel & Hs).
  assert (Hsel : forall c, In c sel -> exists id, In id ids /\ is_cell cs id c).
  { intros c Hc. destruct (sel_in cs ids sel c Hs Hc) as (id & Hid & Hn). exists id. split; [exact Hid|].
    rewrite Forall_forall in Hr. split; [apply Hr in Hid; lia|exact Hn]. }
  destruct (extract_ok enum Henum junk g cs Hg Hv ids sel Hne Hr Hs) as (g' & used & pts & E & Eu & Ep & Egp & Hgo).
  { apply Forall_forall. intros c Hc. destruct (Hsel c Hc) as (id & Hid & H0 & Hn). destruct (Hids id Hid) as (c' & (_ & Hn') & Hle).
    rewrite Hn in Hn'. injection Hn' as <-. exact Hle. }
  { intros c r Es. subst sel. inversion Hs as [|id ? ids' ? Hc _ E1 E2]; subst. apply (Hfirst id ids' c eq_refl).
    split; [|exact Hc]. inversion Hr; lia. }
  destruct (Henum (List.concat (List.map snd sel))) as [Hnd Hin]. rewrite <- Eu in Hnd, Hin.
  assert (Hused : forall v, In v used <-> exists c, In c sel /\ In v (snd c)).
  { intros v. rewrite Hin, in_concat. split.
    - intros (l & Hl & Hvl). apply in_map_iff in Hl. destruct Hl as (c & <- & Hc). exists c. split; assumption.
    - intros (c & Hc & Hvc). exists (snd c). split; [apply in_map; exact Hc|exact Hvc]. }
  assert (Hpos : forall v, In v used -> 0 <= v < zlen (g_points g)).
  { intros v Hvu. apply Hused in Hvu. destruct Hvu as (c & Hc & Hvc). destruct (Hsel c Hc) as (id & _ & _ & Hn).
    apply (Hv c v); [|exact Hvc]. apply nth_error_In in Hn. exact Hn. }
  exists g', (List.map (fun c => (fst c, List.map (ren used) (snd c))) sel), used.
  split; [exact E|]. split; [exact Hgo|]. split; [|split; [|split; [exact Hnd|split]]].
  - intros c' v' Hc' Hv'. apply in_map_iff in Hc'. destruct Hc' as (c & <- & Hc). cbn [snd] in Hv'.
    apply in_map_iff in Hv'. destruct Hv' as (v & <- & Hvc).
    destruct (idmap_in used Hnd v) as (_ & Hk & _). { apply Hused. exists c. split; assumption. }
    rewrite Egp. apply mapM_ok_len in Ep. unfold zlen in *. lia.
  - assert (Hcell : forall c, In c sel -> same_cell g g' c (fst c, List.map (ren used) (snd c))).
    { intros c Hc. split; [reflexivity|]. cbn [snd]. rewrite List.map_map. apply map_ext_in. intros v Hvc.
      assert (Hvu : In v used) by (apply Hused; exists c; split; assumption).
      apply (ren_position g used pts g' v Hnd Ep Egp Hvu). apply Hpos in Hvu. lia. }
    clear -Hs Hcell Hr. induction Hs as [|id c ids sel Hc _ IH]; [constructor|].
    inversion Hr as [|? ? Hid Hr']; subst. constructor.
    + exists c. split; [split; [lia|exact Hc]|]. apply Hcell. left. reflexivity.
    + apply IH; [exact Hr'|]. intros d Hd. apply Hcell. right. exact Hd.
  - intros v. rewrite Hused. split.
    + intros (c & Hc & Hvc). destruct (Hsel c Hc) as (id & Hid & Hcc). exists id, c. auto.
    + intros (id & c & Hid & (H0 & Hn) & Hvc). apply In_nth_error in Hid. destruct Hid as (k & Hk).
      destruct (VtkProofs.Forall2_nth _ _ _ _ _ Hs Hk) as (c2 & Hk2 & Hn2). rewrite Hn in Hn2. injection Hn2 as <-.
      exists c. split; [apply nth_error_In in Hk2; exact Hk2|exact Hvc].
  - rewrite Egp. apply mapM_ok_Forall2 in Ep. clear -Ep Hpos.
    induction Ep as [|v p vs ps Hp _ IH]; [reflexivity|]. cbn [List.map]. rewrite IH.
    + f_equal. unfold position. specialize (Hpos v (or_introl eq_refl)). apply py_get_nonneg in Hp; [|lia]. rewrite Hp. reflexivity.
    + intros w Hw. apply Hpos. right. exact Hw.
Qed.
Print Assumptions C60_extract.

(** No cell asked for: [np.concatenate] has nothing to join. *)
Theorem C60_empty : forall P enum junk (g : grid P), extract_cells enum junk g [] = Err ValueError.
Proof. reflexivity. Qed.
Print Assumptions C60_empty.

(** A number that is too large is refused, wherever it is in the list. *)
Theorem C60_out_of_range : forall P enum junk (g : grid P) cs ids id,
  grid_of g cs -> In id ids -> zlen cs <= id -> extract_cells enum junk g ids = Err IndexError.
Proof.
  intros P enum junk g cs ids id Hg Hid Hbig. unfold extract_cells.
  assert (E : np_take (g_types g) ids = Err IndexError).
  { assert (Hl : zlen (g_types g) = zlen cs) by (rewrite (go_types _ _ Hg); apply zlen_map).
    assert (Eb : py_get (g_types g) id = Err IndexError).
    { destruct (py_get (g_types g) id) as [t|e] eqn:E; [apply py_get_ok_range in E; pose proof (zlen_nonneg cs); lia|].
      apply py_get_err in E. subst e. reflexivity. }
    unfold np_take. clear -Hid Eb. induction ids as [|i ids IH]; [destruct Hid|]. cbn [mapM].
    destruct (py_get (g_types g) i) as [t|e] eqn:E.
    - destruct Hid as [->|Hid]; [congruence|]. cbn [bind]. rewrite (IH Hid). reflexivity.
    - apply py_get_err in E. subst e. reflexivity. }
  rewrite E. reflexivity.
Qed.
Print Assumptions C60_out_of_range.

Lemma first_large (l : list (Z * list Z)) : Exists (fun c => 255 < zlen (snd c)) l ->
  exists a c b, l = a ++ c :: b /\ Forall (fun c => zlen (snd c) <= 255) a /\ 255 < zlen (snd c).
Proof.
  induction l as [|x l IH]; intros H; [inversion H|].
  destruct (Z.ltb_spec 255 (zlen (snd x))) as [Hx|Hx].
  - exists [], x, l. split; [reflexivity|]. split; [constructor|exact Hx].
  - inversion H as [? ? Hh|? ? Ht]; subst; [lia|]. destruct (IH Ht) as (a & c & b & -> & Ha & Hc).
    exists (x :: a), c, b. split; [reflexivity|]. split; [constructor; [lia|exact Ha]|exact Hc].
Qed.

Lemma sizes_enc_len (a b : list (list Z)) : List.map zlen a = List.map zlen b -> List.length (enc a) = List.length (enc b).
Proof.
  intros H. assert (E : zlen (enc a) = zlen (enc b)).
  { rewrite !zlen_enc, !zlen_concat. unfold sizes. rewrite H. f_equal. unfold zlen. rewrite <- (map_length zlen a), <- (map_length zlen b), H. reflexivity. }
  unfold zlen in E. lia.
Qed.

(** The limit on sizes is needed: the sizes are stored in unsigned bytes.  With a polygon of more than
    255 vertices, or of 255 in the first place, the call fails or gives other cells. *)
Theorem C60_large_cells : forall P enum junk (g : grid P) cs ids sel,
  set_enum enum -> grid_of g cs ->
  Forall2 (is_cell cs) ids sel ->
  (exists c r, sel = c :: r /\ zlen (snd c) = 255) \/ Exists (fun c => 255 < zlen (snd c)) sel ->
  forall g' cs', extract_cells enum junk g ids = Ok g' -> grid_of g' cs' ->
    List.map (fun c => zlen (snd c)) cs' <> List.map (fun c => zlen (snd c)) sel.
Proof.
  intros P enum junk g cs ids sel Henum Hg Hs Hlarge g' cs' Hok Hg' Hsz.
  assert (Hr : Forall (fun id => 0 <= id < zlen cs) ids).
  { apply is_cell_sel. intros id Hid. apply In_nth_error in Hid. destruct Hid as (k & Hk).
    destruct (VtkProofs.Forall2_nth _ _ _ _ _ Hs Hk) as (c & _ & Hc). exists c. exact Hc. }
  assert (Hs' : Forall2 (fun id c => nth_error cs (Z.to_nat id) = Some c) ids sel).
  { clear -Hs. induction Hs as [|id c ids sel [_ Hc] _ IH]; constructor; assumption. }
  destruct (reads junk g cs Hg ids sel Hr Hs') as (R1 & R2 & R3).
  unfold extract_cells in Hok. rewrite R1 in Hok. cbn [bind] in Hok. rewrite R2 in Hok. cbn [bind] in Hok.
  assert (Hne : sel <> []). { destruct Hlarge as [(c & r & -> & _)|H]; [discriminate|]. inversion H; discriminate. }
  assert (Ev : match List.map snd sel with [] => Err ValueError | _ => Ok (List.concat (List.map snd sel)) end = Ok (List.concat (List.map snd sel))).
  { destruct sel; [congruence|]. reflexivity. }
  rewrite Ev in Hok. cbn [bind] in Hok. rewrite R3 in Hok. cbn [bind] in Hok.
  remember (List.concat (List.map snd sel)) as vtex eqn:Evt. remember (enum vtex) as used eqn:Eu.
  destruct (Henum vtex) as [Hnd Hin]. rewrite <- Eu in Hnd, Hin. fold (idmap used) in Hok.
  assert (En : mapM (fun x => dget_err Z.eqb x (idmap used)) vtex = Ok (List.map (ren used) vtex)).
  { apply mapM_map. intros x Hx. unfold dget_err. destruct (idmap_in used Hnd x ltac:(apply Hin; exact Hx)) as (E & _). rewrite E. reflexivity. }
  rewrite En in Hok. cbn [bind] in Hok.
  remember (List.map (fun c => List.map (ren used) (snd c)) sel) as new eqn:Enw.
  assert (Enew : List.map (ren used) vtex = List.concat new).
  { rewrite Evt, Enw, concat_map, List.map_map. reflexivity. }
  rewrite Enew in Hok.
  remember (List.map junk (zrange 0 (zlen (List.concat new) + zlen (List.map fst sel)))) as rest eqn:Er.
  assert (Hrest : zlen rest = zlen (enc new)).
  { rewrite Er, zlen_map. rewrite zlen_zrange.
    2:{ pose proof (zlen_nonneg (List.concat new)). pose proof (zlen_nonneg (List.map fst sel)). lia. }
    rewrite zlen_enc. assert (zlen new = zlen sel) as -> by (rewrite Enw; apply zlen_map). rewrite zlen_map. lia. }
  clear Er. apply bind_ok in Hok. destruct Hok as ((((cells & i1) & j1) & f1) & Hfold & Hok).
  apply bind_ok in Hok. destruct Hok as (pts & _ & Hok).
  assert (Hcells : g_cells g' = cells).
  { unfold ug_new in Hok. apply bind_ok in Hok. destruct Hok as (l & _ & Hok). destruct (zlen l =? _); [|discriminate]. injection Hok as <-. reflexivity. }
  assert (Hszn : List.map zlen (List.map snd cs') = List.map zlen new).
  { rewrite List.map_map, Hsz, Enw, List.map_map. apply map_ext. intros c. rewrite zlen_map. reflexivity. }
  (* the first cell *)
  assert (H254 : forall c r, sel = c :: r -> zlen (snd c) <> 255).
  { intros c r E H255. subst sel. cbn [List.map] in Enw, Hfold. rewrite H255 in Hfold. change (255 mod 256) with 255 in Hfold.
    cbn [foldM] in Hfold. apply bind_ok in Hfold. destruct Hfold as (st & Hst & _). unfold fill_step in Hst.
    apply bind_ok in Hst. destruct Hst as (arr1 & _ & Hst). apply bind_ok in Hst. destruct Hst as (arr2 & Hst & _).
    change ((0 + 1 + 255) mod 256) with 0 in Hst. change (0 + 1) with 1 in Hst.
    assert (Hl : zlen (py_slice (List.concat new) 0 (0 + 255)) = 255).
    { rewrite Enw. cbn [List.concat]. set (u := List.map (ren used) (snd c)).
      assert (Hu : zlen u = 255) by (unfold u; rewrite zlen_map; exact H255).
      pose proof (py_slice_mid [] u (List.concat (List.map (fun c0 => List.map (ren used) (snd c0)) r))) as Hsl.
      cbn [app] in Hsl. rewrite zlen_nil in Hsl. rewrite Hu in Hsl. rewrite Hsl. exact Hu. }
    unfold np_setslice in Hst. cbv zeta in Hst.
    assert (Hk : Z.max 0 (slice_bound (zlen arr1) 0 - slice_bound (zlen arr1) 1) = 0).
    { unfold slice_bound. cbn. pose proof (zlen_nonneg arr1). lia. }
    rewrite Hk, Hl in Hst. change (255 =? 0) with false in Hst. cbv iota in Hst.
    destruct (py_slice (List.concat new) 0 (0 + 255)) as [|v [|w l]]; [discriminate|discriminate|discriminate]. }
  destruct Hlarge as [(c & r & E & H255)|Hex]; [exact (H254 c r E H255)|].
  destruct (first_large sel Hex) as (s1 & c & s2 & Es & Hs1 & Hc).
  rewrite Es in Enw. rewrite map_app in Enw. cbn [List.map] in Enw.
  remember (List.map (fun c => List.map (ren used) (snd c)) s1) as n1 eqn:En1.
  remember (List.map (ren used) (snd c)) as nc eqn:Enc. remember (List.map (fun c => List.map (ren used) (snd c)) s2) as n2 eqn:En2.
  assert (Hnc : zlen nc = zlen (snd c)) by (rewrite Enc; apply zlen_map).
  assert (Es1 : List.map (fun c => zlen (snd c) mod 256) s1 = sizes n1).
  { rewrite En1. unfold sizes. rewrite List.map_map. apply map_ext_in. intros d Hd. rewrite zlen_map. rewrite Forall_forall in Hs1.
    apply Hs1 in Hd. apply Z.mod_small. pose proof (zlen_nonneg (snd d)). lia. }
  rewrite Es, map_app in Hfold. cbn [List.map] in Hfold. rewrite Es1 in Hfold. rewrite foldM_app in Hfold.
  assert (Hsplit : exists r1 x r2, rest = r1 ++ x :: r2 /\ zlen r1 = zlen (enc n1)).
  { rewrite Enw, enc_app, enc_cons, zlen_app, zlen_cons, zlen_app in Hrest.
    pose proof (zlen_nonneg (enc n1)). pose proof (zlen_nonneg nc). pose proof (zlen_nonneg (enc n2)).
    destruct (nth_error rest (List.length (enc n1))) as [x|] eqn:Ex.
    - apply nth_error_split in Ex. destruct Ex as (r1 & r2 & E1 & E2). exists r1, x, r2. split; [exact E1|]. unfold zlen. lia.
    - apply nth_error_None in Ex. unfold zlen in *. lia. }
  destruct Hsplit as (r1 & x & r2 & Erest & Hr1).
  pose proof (fill_gen (List.concat new) [] n1 r1 (x :: r2) (nc ++ List.concat n2) true) as Hfill.
  cbn [app List.concat] in Hfill. change (enc []) with (@nil Z) in Hfill. cbn [app] in Hfill. rewrite !zlen_nil in Hfill.
  rewrite Erest in Hfold. rewrite Hfill in Hfold; clear Hfill.
  2:{ rewrite Enw, concat_app. reflexivity. }
  2:{ exact Hr1. }
  2:{ intros _. split; [reflexivity|]. intros d r Ed. destruct s1 as [|d1 s1]; [rewrite En1 in Ed; discriminate|].
      rewrite En1 in Ed. cbn in Ed. injection Ed as Ed _. subst d. rewrite zlen_map. inversion Hs1 as [|? ? Hd1 _]; subst.
      pose proof (H254 d1 (s1 ++ c :: s2) ltac:(reflexivity)). lia. }
  cbn [bind foldM] in Hfold. apply bind_ok in Hfold. destruct Hfold as ((((a3 & i3) & j3) & f3) & Hstep & Hfold).
  unfold fill_step in Hstep at 1. rewrite set_mid in Hstep. cbn [bind] in Hstep.
  apply bind_ok in Hstep. destruct Hstep as (a4 & Hsl & Hstep). injection Hstep as <- <- _ _.
  assert (Hlen4 : List.length a4 = List.length (enc n1 ++ zlen (snd c) mod 256 :: r2)).
  { exact (slice_setslice_len _ _ _ _ _ Hsl). }
  assert (Hmodb : 0 <= zlen (snd c) mod 256 < 256) by (apply Z.mod_pos_bound; lia).
  pose proof (zlen_nonneg (enc n1)) as Hn1.
  apply setslice_before with (k := List.length (enc n1)) in Hsl.
  2:{ lia. } 2:{ unfold zlen in *. lia. } 2:{ rewrite app_length. cbn [List.length]. lia. }
  apply fill_keeps with (k := List.length (enc n1)) in Hfold.
  2:{ apply Forall_forall. intros s Hin'. apply in_map_iff in Hin'. destruct Hin' as (d & <- & _). apply Z.mod_pos_bound. lia. }
  2:{ lia. } 2:{ unfold zlen in *. lia. } 2:{ rewrite Hlen4, app_length. cbn [List.length]. lia. }
  cbn [fst] in Hfold. rewrite Hsl in Hfold. rewrite nth_error_app2, Nat.sub_diag in Hfold by lia. cbn [nth_error] in Hfold.
  (* the grid *)
  rewrite <- Hcells, (grid_enc _ _ Hg') in Hfold. rewrite Enw, map_app in Hszn. cbn [List.map] in Hszn.
  destruct (map_eq_app _ _ _ _ Hszn) as (c1 & c2 & Ec & Ec1 & Ec2).
  destruct c2 as [|cc c2]; [discriminate|]. cbn [List.map] in Ec2. injection Ec2 as Ecc _.
  rewrite Ec, enc_app, enc_cons in Hfold.
  rewrite nth_error_app2 in Hfold by (rewrite (sizes_enc_len c1 n1 Ec1); lia).
  rewrite (sizes_enc_len c1 n1 Ec1), Nat.sub_diag in Hfold. cbn [nth_error] in Hfold. injection Hfold as Hfold.
  rewrite Ecc, Hnc in Hfold. lia.
Qed.
Print Assumptions C60_large_cells.

(** A case: a quadrangle and a triangle sharing an edge, and a hanging point; cells 1, 0, 1 asked for. *)
Definition ex_cs : list (Z * list Z) := [(9, [0;1;4;3]); (5, [1;2;4])].
Definition ex_grid : grid string :=
  Grid string [4;0;1;4;3; 3;1;2;4] [0;4;7] [9;5] ["p0"; "p1"; "p2"; "p3"; "p4"; "p5"].
Example ex_grid_of : grid_of ex_grid ex_cs /\ vertices_ok ex_grid ex_cs.
Proof.
  split.
  - constructor; try reflexivity. intros k Hk. destruct k as [|[|[|k]]]; try reflexivity. cbn in Hk. lia.
  - intros c v Hc Hv. cbn in Hc. destruct Hc as [<-|[<-|[]]]; cbn in Hv; cbn; lia.
Qed.
Example ex_extract :
  extract_cells (fun l => rev (np_unique l)) (fun i => 1000 + i) ex_grid [1;0;1] =
  Ok (Grid string [3;3;2;0; 4;4;3;0;1; 3;3;2;0] [0;3;7;10] [5;9;5] ["p4"; "p3"; "p2"; "p1"; "p0"]).
Proof. vm_compute. reflexivity. Qed.
