(** * What a failing HDF5 writer leaves: proofs. *)
From Coq Require Import ZArith List Bool String Lia.
From Verif Require Import Py PyFacts Conn ConnProofs Mesh Data Ic3Bytes Ic3 Ic3HeaderSpec Ic3FileSpec Ic3RoundSpec Ic3MeshProofs Ic3FileThm Ic3WriteProofs Ic3V4 Ic3V4Spec Ic3V4Proofs Ic3V4SolProofs Ic3V4Fail.

Lemma bind_assoc {A B C} (x : res A) (f : A -> res B) (g : B -> res C) : bind (bind x f) g = bind x (fun a => bind (f a) g).
Proof. destruct x; reflexivity. Qed.

(** The reader on complete files. *)
Lemma read_left_complete f sol : read_left4 (as_left f) sol = read_data4 f sol.
Proof.
  unfold read_left4, read_data4, read_noofa4, read_cvofa4. cbn [as_left ml_noofa_i ml_noofa_v ml_cvofa ml_fa ml_cv ml_bounds ml_no ml_coords or_err bind].
  rewrite ?bind_assoc. repeat (match goal with |- bind ?x _ = bind ?x _ => lazymatch x with read_bounds_left _ _ => fail | reshape _ 3 _ => fail | _ => destruct x; cbn [bind]; [rewrite ?bind_assoc | reflexivity] end end).
  assert (E : read_bounds_left (Csr (0 :: np_cumsum (m4_noofa_i f)) (m4_noofa_v f)) (option_map as_left_bounds (m4_bounds f)) = read_bounds4 (Csr (0 :: np_cumsum (m4_noofa_i f)) (m4_noofa_v f)) (m4_bounds f)).
  { destruct (m4_bounds f); reflexivity. }
  rewrite E. reflexivity.
Qed.

(** Marks. *)
Definition drop_perio (x : Z * Z * (string * Z) * option (list Z)) : Z * Z * (string * Z) := fst x.
Definition perio_in (x : Z * Z * (string * Z) * option (list Z)) : list (string * list Z) := match snd x with Some l => [(fst (snd (fst x)), l)] | None => [] end.
Lemma mark4_split k b : mark4 (k, b) = (row <- mark_checks (k, b) ;;
   p <- (match mk_perio b with Some (Some l) => if zlen (firstn 3 l) =? 3 then Ok (Some (firstn 3 l)) else Err ValueError | _ => Ok None end) ;;
   Ok (row, p)).
Proof.
  unfold mark4, mark_checks. rewrite !bind_assoc. repeat (match goal with |- bind ?x _ = bind ?x _ => destruct x; cbn [bind]; [rewrite ?bind_assoc | reflexivity] end).
  match goal with |- (let '(_, _) := ?p in _) = _ => destruct p as (lo, hi) | _ => idtac end. cbn [bind]. reflexivity.
Qed.
Lemma checks_key k b row : mark_checks (k, b) = Ok row -> fst (snd row) = k.
Proof.
  unfold mark_checks. intros H. repeat (apply bind_ok in H; destruct H as (? & _ & H)). destruct x5 as (lo, hi). apply ok_inj in H. subst row. reflexivity.
Qed.
Lemma marks_left_ok bs : forall rows groups perio ms g p r, marks_left bs rows groups perio = (ms, g, p, r) ->
  match r with
  | Ok _ => exists l, mapM mark4 bs = Ok l /\ ms = rows ++ List.map drop_perio l /\ g = groups ++ List.map fst (flat_map perio_in l) /\ p = perio ++ flat_map perio_in l
  | Err e => mapM mark4 bs = Err e
  end.
Proof.
  induction bs as [| (k, b) bs IH]; intros rows groups perio ms g p r H; cbn [marks_left mapM] in *.
  - injection H as <- <- <- <-. exists []. cbn. rewrite !app_nil_r. auto.
  - rewrite mark4_split. destruct (mark_checks (k, b)) as [row | e] eqn:C; cbn [bind]; [| injection H as <- <- <- <-; reflexivity].
    assert (CK := checks_key _ _ _ C).
    assert (N : forall x, match r with Ok _ => exists l, mapM mark4 bs = Ok l /\ ms = (rows ++ [row]) ++ List.map drop_perio l /\ g = (groups ++ List.map fst x) ++ List.map fst (flat_map perio_in l) /\ p = (perio ++ x) ++ flat_map perio_in l | Err e => mapM mark4 bs = Err e end ->
      forall q, perio_in (row, q) = x -> match r with Ok _ => exists l, (bs' <- mapM mark4 bs ;; Ok ((row, q) :: bs')) = Ok l /\ ms = rows ++ List.map drop_perio l /\ g = groups ++ List.map fst (flat_map perio_in l) /\ p = perio ++ flat_map perio_in l | Err e => (bs' <- mapM mark4 bs ;; Ok ((row, q) :: bs')) = Err e end).
    { intros x Q q E. destruct r as [u | e]; [| rewrite Q; reflexivity]. destruct Q as (l & -> & -> & -> & ->). exists ((row, q) :: l). cbn [bind List.map flat_map]. rewrite E. split; [reflexivity |]. rewrite map_app, <- !app_assoc. auto. }
    destruct (mk_perio b) as [[l |] |].
    + destruct (zlen (firstn 3 l) =? 3); cbn [bind]; [| injection H as <- <- <- <-; reflexivity]. apply IH in H. apply (N [(k, firstn 3 l)] H). unfold perio_in. cbn [snd fst]. rewrite CK. reflexivity.
    + cbn [bind]. apply IH in H. apply (N []); [rewrite !app_nil_r; exact H | reflexivity].
    + cbn [bind]. apply IH in H. apply (N []); [rewrite !app_nil_r; exact H | reflexivity].
Qed.

Lemma bounds_left_ok bs fa b r : bounds_left_of bs fa = (b, r) ->
  match r with
  | Ok _ => exists b4, write_bounds4 bs fa = Ok b4 /\ b = as_left_bounds b4
  | Err _ => (exists e, write_bounds4 bs fa = Err e) /\ (bl_offsets b = None \/ bl_kinds b = None)
  end.
Proof.
  unfold bounds_left_of, write_bounds4. destruct (marks_left bs [] [] []) as (((ms, g), p), rm) eqn:ML. apply marks_left_ok in ML. destruct rm as [u | e].
  2: { intros H. injection H as <- <-. rewrite ML. cbn [bind]. split; [eexists; reflexivity | left; reflexivity]. }
  destruct ML as (l & -> & -> & -> & ->). cbn [bind app].
  assert (EL : fold_left (fun m '(_, hi, _) => Z.max m hi) (List.map drop_perio l) 0 = fold_left (fun m '(_, hi, _, _) => Z.max m hi) l 0).
  { generalize 0. induction l as [| (((lo, hi), kk), q) l IH]; intros z; [reflexivity |]. cbn. apply IH. }
  assert (ER : List.map (fun '(lo, _, kk) => (lo, kk)) (List.map drop_perio l) = List.map (fun '(lo, _, kk, _) => (lo, kk)) l).
  { rewrite map_map. apply map_ext. intros (((lo, hi), kk), q). reflexivity. }
  assert (EP : flat_map (fun '(_, _, (key, _), p) => match p with Some l => [(key, l)] | None => [] end) l = flat_map perio_in l).
  { clear. induction l as [| (((lo, hi), (k, kd)), q) l IH]; [reflexivity |]. cbn [flat_map]. rewrite IH. reflexivity. }
  rewrite EL, ER, EP. clear EL ER EP.
  set (sorted := isort _ _). destruct (mapM _ sorted) as [labels | e] eqn:LB; cbn [bind].
  2: { intros H. injection H as <- <-. split; [eexists; reflexivity | left; reflexivity]. }
  set (gr := List.map fst (flat_map perio_in l)).
  assert (EX : existsb (fun k => existsb (String.eqb k) reserved4) gr = existsb (String.eqb "labels") gr || existsb (String.eqb "offsets") gr || existsb (String.eqb "kinds") gr).
  { clear. induction gr as [| k gr IH]; [reflexivity |]. cbn [existsb]. rewrite IH. cbn [reserved4 existsb]. rewrite (String.eqb_sym k "labels"), (String.eqb_sym k "offsets"), (String.eqb_sym k "kinds").
    destruct (String.eqb "labels" k), (String.eqb "offsets" k), (String.eqb "kinds" k), (existsb (String.eqb "labels") gr), (existsb (String.eqb "offsets") gr); reflexivity. }
  rewrite EX. destruct (existsb (String.eqb "labels") gr); cbn [orb].
  { intros H. injection H as <- <-. split; [eexists; reflexivity | left; reflexivity]. }
  destruct (i4_list _) as [offsets | e]; cbn [bind].
  2: { intros H. injection H as <- <-. split; [destruct (_ || _); eexists; reflexivity | left; reflexivity]. }
  destruct (existsb (String.eqb "offsets") gr); cbn [orb].
  { intros H. injection H as <- <-. split; [eexists; reflexivity | left; reflexivity]. }
  destruct (existsb (String.eqb "kinds") gr).
  { intros H. injection H as <- <-. split; [eexists; reflexivity | right; reflexivity]. }
  intros H. injection H as <- <-. eexists. split; [reflexivity |]. reflexivity.
Qed.

Lemma mesh_left_ok narrow m w f r : mesh_left_of narrow m w = (f, r) ->
  match r with
  | Ok _ => exists mf, write_mesh4 narrow m w = Ok mf /\ f = as_left mf
  | Err _ => (exists e, write_mesh4 narrow m w = Err e) /\ forall sol, exists e, read_left4 f sol = Err e
  end.
Proof.
  unfold mesh_left_of, write_mesh4. destruct (w_f2e w) as [f2e |]; cbn [or_err bind].
  2: { intros H. injection H as <- <-. split; [eexists; reflexivity |]. intros sol. eexists. reflexivity. }
  destruct (i4_list (List.concat (m_rows f2e))) as [cvofa | e]; cbn [bind].
  2: { intros H. injection H as <- <-. split; [eexists; reflexivity |]. intros sol. eexists. reflexivity. }
  destruct (bounds_left_of (w_bocos w) (w_fa w)) as (b, rb) eqn:B. apply bounds_left_ok in B. intros H. injection H as <- <-. destruct rb as [u | e].
  - destruct B as (b4 & -> & ->). cbn [bind]. eexists. split; [reflexivity |]. reflexivity.
  - destruct B as ((e' & ->) & NB). split; [eexists; reflexivity |]. intros sol.
    assert (RB : forall z, exists x, read_bounds_left z (Some b) = Err x).
    { intros z. unfold read_bounds_left, read_item. destruct NB as [-> | ->].
      - destruct (existsb _ _); eexists; reflexivity.
      - destruct (bl_offsets b), (bl_labels b); cbn [bind]; repeat destruct (existsb _ _); eexists; reflexivity. }
    unfold read_left4. cbn [ml_noofa_i ml_noofa_v ml_cvofa ml_fa ml_cv ml_bounds or_err bind].
    repeat (match goal with |- exists e, bind (read_bounds_left ?z _) _ = Err e => destruct (RB z) as (x & ->); exists x; reflexivity
                          | |- exists e, bind ?x _ = Err e => let y := x in destruct y as [? | ?]; cbn [bind]; [| eexists; reflexivity] end).
Qed.

(** ** The solution *)
Lemma attrs_left_ok l : forall d d' r, attrs_left l d = (d', r) ->
  match r with
  | Ok _ => exists ws, mapM (fun '(name, v) => x <- attr_of v ;; Ok (name, x)) l = Ok ws /\ d' = d ++ ws
  | Err e => mapM (fun '(name, v) => x <- attr_of v ;; Ok (name, x)) l = Err e
  end.
Proof.
  induction l as [| (k, v) l IH]; intros d d' r H; cbn [attrs_left mapM] in *.
  - injection H as <- <-. exists []. rewrite app_nil_r. auto.
  - destruct (attr_of v) as [x | e]; cbn [bind]; [| injection H as <- <-; reflexivity]. apply IH in H. destruct r as [u | e].
    + destruct H as (ws & -> & ->). cbn [bind]. eexists. split; [reflexivity |]. rewrite <- app_assoc. reflexivity.
    + rewrite H. reflexivity.
Qed.
Section Put.
  Context (i2d : Z -> Z).
  Lemma put_left_ok vars : forall d d' r, put_left i2d vars d = (d', r) ->
    match r with
    | Ok _ => put_vars i2d vars d = Ok d'
    | Err e => put_vars i2d vars d = Err e /\ exists pre x post, vars = pre ++ x :: post /\ put_vars i2d pre d = Ok d' /\ dmem String.eqb (lower (fst x)) d' = true
    end.
  Proof.
    induction vars as [| (name, a) vars IH]; intros d d' r H; cbn [put_left] in H.
    - injection H as <- <-. reflexivity.
    - unfold put_vars. cbn [foldM]. destruct (dmem String.eqb (lower name) d) eqn:E; cbn [bind].
      + injection H as <- <-. split; [reflexivity |]. exists [], (name, a), vars. auto.
      + apply IH in H. destruct r as [u | e]; [exact H |]. destruct H as (H & pre & x & post & -> & P & M). split; [exact H |].
        exists ((name, a) :: pre), x, post. split; [reflexivity |]. split; [| exact M]. unfold put_vars. cbn [foldM]. rewrite E. exact P.
  Qed.

  Definition three (cells : dict string array) : list (string * array) := flat_map (fun x => match dget String.eqb x cells with Some a => [(x, a)] | None => [] end) conserved.
  Lemma three_all cells : has_all cells = true -> exists a1 a2 a3, dget String.eqb "RHO" cells = Some a1 /\ dget String.eqb "RHOU" cells = Some a2 /\ dget String.eqb "RHOE" cells = Some a3 /\
    three cells = [("RHO"%string, a1); ("RHOU"%string, a2); ("RHOE"%string, a3)] /\
    put_left i2d (three cells) [] = ([("rho"%string, array_doubles i2d a1); ("rhou"%string, array_doubles i2d a2); ("rhoe"%string, array_doubles i2d a3)], Ok tt) /\
    (a <- mapM (fun x => a <- dget_err String.eqb x cells ;; Ok (x, a)) conserved ;; put_vars i2d a []) =
      Ok [("rho"%string, array_doubles i2d a1); ("rhou"%string, array_doubles i2d a2); ("rhoe"%string, array_doubles i2d a3)].
  Proof.
    unfold has_all. cbn [forallb conserved]. rewrite !andb_true_iff. intros (E1 & E2 & E3 & _). unfold dmem, three in *. cbn [flat_map conserved mapM]. unfold dget_err.
    destruct (dget String.eqb "RHO" cells) as [a1 |]; [| discriminate]. destruct (dget String.eqb "RHOU" cells) as [a2 |]; [| discriminate].
    destruct (dget String.eqb "RHOE" cells) as [a3 |]; [| discriminate]. exists a1, a2, a3. repeat split.
  Qed.

  (** What a failure leaves: no variable at all; or the three conserved variables and the statistics that
      precede the failure. *)
  Lemma sol_left_ok params w s r : sol_left_of i2d params w = (s, r) ->
    let cells := fd_items (w_cells w) in
    match r with
    | Ok _ => write_sol4 i2d params w = Ok s
    | Err _ => (exists e, write_sol4 i2d params w = Err e) /\
        (s4_vars s = [] /\ ((exists e, attr_of (param params "step" (SNum (NInt 0))) = Err e) \/ (exists e, attr_of (param params "time" (SNum (NInt 0))) = Err e) \/ has_all cells = false) \/
         has_all cells = true /\ (exists st ti, attr_of (param params "step" (SNum (NInt 0))) = Ok st /\ attr_of (param params "time" (SNum (NInt 0))) = Ok ti) /\ s4_vars s = List.map (low i2d) (three cells) /\
         exists weights pre x post, filter is_stat_var cells = pre ++ x :: post /\ s4_stats s = Some (weights, List.map (low i2d) pre) /\ NoDup (List.map fst (List.map (low i2d) pre)))
    end.
  Proof.
    intros H cells. unfold sol_left_of in H. unfold write_sol4.
    assert (AT : forall v, attr_of v = Ok (match v with SNum n => n | SWgt _ => NInt 0 end) \/ exists e, attr_of v = Err e).
    { intros [[n | p] | d]; cbn [attr_of]; [destruct (_ && _) | |]; eauto. }
    cbn [attrs_left] in H. destruct (AT (param params "step" (SNum (NInt 0)))) as [A1 | (e & A1)]; rewrite A1 in *; cbn [bind].
    2: { injection H as <- <-. split; [eauto | left; split; [reflexivity | eauto]]. }
    destruct (AT (param params "time" (SNum (NInt 0)))) as [A2 | (e & A2)]; rewrite A2 in *; cbn [bind].
    2: { injection H as <- <-. split; [eauto | left; split; [reflexivity | eauto]]. }
    fold cells in H |- *. fold (has_all cells) in H |- *. fold (three cells) in H. rewrite filter_stat in *. rewrite filter_weight in *.
    assert (ST : forall vars s r, (forall so, (match filter is_stat_var cells with [] => Ok None | _ => weights <- mapM (fun '(name, v) => x <- attr_of v ;; Ok (name, x)) (filter is_weight params) ;; d <- put_vars i2d (filter is_stat_var cells) [] ;; Ok (Some (weights, d)) end) = so ->
        match filter is_stat_var cells with
        | [] => (S4 [("step"%string, match param params "step" (SNum (NInt 0)) with SNum n => n | SWgt _ => NInt 0 end); ("time"%string, match param params "time" (SNum (NInt 0)) with SNum n => n | SWgt _ => NInt 0 end)] vars None, Ok tt)
        | st => match attrs_left (filter is_weight params) [] with
               | (weights, Err e) => (S4 [("step"%string, match param params "step" (SNum (NInt 0)) with SNum n => n | SWgt _ => NInt 0 end); ("time"%string, match param params "time" (SNum (NInt 0)) with SNum n => n | SWgt _ => NInt 0 end)] vars (Some (weights, [])), Err e)
               | (weights, Ok _) => let '(d, r) := put_left i2d st [] in (S4 [("step"%string, match param params "step" (SNum (NInt 0)) with SNum n => n | SWgt _ => NInt 0 end); ("time"%string, match param params "time" (SNum (NInt 0)) with SNum n => n | SWgt _ => NInt 0 end)] vars (Some (weights, d)), r)
               end
        end = (s, r) ->
        s4_vars s = vars /\ s4_attrs s = [("step"%string, match param params "step" (SNum (NInt 0)) with SNum n => n | SWgt _ => NInt 0 end); ("time"%string, match param params "time" (SNum (NInt 0)) with SNum n => n | SWgt _ => NInt 0 end)] /\
        match r with Ok _ => so = Ok (s4_stats s) | Err _ => (exists e, so = Err e) /\ exists weights pre x post, filter is_stat_var cells = pre ++ x :: post /\ s4_stats s = Some (weights, List.map (low i2d) pre) /\ NoDup (List.map fst (List.map (low i2d) pre)) end)).
    { intros vars s0 r0 so <- Q. destruct (filter is_stat_var cells) as [| y l]; [injection Q as <- <-; auto |].
      destruct (attrs_left (filter is_weight params) []) as (ws, [u | e]) eqn:AL; apply attrs_left_ok in AL.
      - destruct AL as (ws' & -> & ->). cbn [bind app]. destruct (put_left i2d (y :: l) []) as (d, rp) eqn:P. apply put_left_ok in P. injection Q as <- <-. destruct rp as [u' | e].
        + rewrite P. auto.
        + destruct P as (-> & pre & x & post & EQ & PP & _). split; [reflexivity |]. split; [reflexivity |]. split; [eexists; reflexivity |]. apply put_ok in PP; [| constructor]. destruct PP as (-> & N).
          exists ws', pre, x, post. auto.
      - injection Q as <- <-. rewrite AL. cbn [bind]. split; [reflexivity |]. split; [reflexivity |]. split; [eexists; reflexivity |]. exists ws, [], y, l. split; [reflexivity |]. split; [reflexivity | constructor]. }
    destruct (has_all cells) eqn:HA.
    - destruct (three_all cells HA) as (a1 & a2 & a3 & G1 & G2 & G3 & T3 & PL & PV). rewrite PL in H. rewrite PV. cbn [bind].
      specialize (ST _ s r _ eq_refl H). destruct ST as (V & AE & ST). destruct r as [u | e].
      + rewrite ST. cbn [bind]. rewrite <- V, <- AE. destruct s; reflexivity.
      + destruct ST as ((e' & ->) & ST). split; [eexists; reflexivity |]. right. split; [reflexivity |]. split; [eauto |]. split; [rewrite V, T3; reflexivity | exact ST].
    - cbn [bind] in *. specialize (ST _ s r _ eq_refl H). destruct ST as (V & AE & ST). destruct r as [u | e].
      + rewrite ST. cbn [bind]. rewrite <- V, <- AE. destruct s; reflexivity.
      + destruct ST as ((e' & ->) & _). split; [eexists; reflexivity |]. left. auto.
  Qed.

  Lemma three_in cells name a : In (name, a) (three cells) -> In name conserved /\ dget String.eqb name cells = Some a.
  Proof.
    unfold three. rewrite in_flat_map. intros (y & I & J). destruct (dget String.eqb y cells) eqn:G; [| destruct J]. destruct J as [J | []]. injection J as <- <-. auto.
  Qed.
  Lemma conserved_not_stat name : In name conserved -> is_stat name = false.
  Proof. unfold conserved. cbn [In]. intros [<- | [<- | [<- | []]]]; reflexivity. Qed.

  (** The reader on a solution left with the conserved variables and the statistics [pre]. *)
  Lemma read_pre cells s cv weights pre x post : has_all cells = true -> NoDup (List.map fst cells) -> 1 <= cv ->
    s4_vars s = List.map (low i2d) (three cells) -> filter is_stat_var cells = pre ++ x :: post ->
    s4_stats s = Some (weights, List.map (low i2d) pre) -> NoDup (List.map fst (List.map (low i2d) pre)) ->
    (forall name a, In (name, a) cells -> In name conserved \/ In (name, a) pre -> exists k, per_cell cv a k) ->
    exists d, read_vars4 cv s cells4 = Ok d /\
      (forall name a k, In name conserved -> dget String.eqb name cells = Some a -> per_cell cv a k -> dget String.eqb name (ds_data d) = Some (var_back i2d cv k a)) /\
      (forall name a k, In (name, a) pre -> per_cell cv a k -> dget String.eqb (upper name) (ds_data d) = Some (var_back i2d cv k a)) /\
      (forall name, In name (List.map fst (ds_data d)) -> In name conserved \/ exists n, In n (List.map fst pre) /\ name = upper n).
  Proof.
    intros HA ND CV V F ST NL PC. destruct (three_all cells HA) as (a1 & a2 & a3 & G1 & G2 & G3 & T3 & _ & _).
    assert (PI : forall y, In y pre -> In y cells /\ is_stat_var y = true).
    { intros y I. apply filter_In. rewrite F. apply in_or_app. left. exact I. }
    set (cells' := three cells ++ pre).
    assert (FS : filter is_stat_var cells' = pre).
    { unfold cells'. rewrite filter_app, T3. change (filter is_stat_var [("RHO"%string, a1); ("RHOU"%string, a2); ("RHOE"%string, a3)]) with (@nil (string * array)). cbn [app].
      assert (AL : forall y, In y pre -> is_stat_var y = true) by (intros y I; apply (PI y I)). clear - AL. induction pre as [| y l IH]; [reflexivity |]. cbn [filter]. rewrite (AL y (or_introl eq_refl)), IH; [reflexivity |]. intros z I. apply AL. right. exact I. }
    assert (G' : forall n, In n conserved -> dget String.eqb n cells' = dget String.eqb n cells).
    { unfold cells'. rewrite T3. unfold conserved. cbn [In]. intros n [<- | [<- | [<- | []]]]; cbn [app dget]; rewrite ?G1, ?G2, ?G3; reflexivity. }
    assert (NP : NoDup (List.map fst pre)).
    { assert (Q : NoDup (List.map fst (filter is_stat_var cells))).
      { clear - ND. induction cells as [| y l IH]; [constructor |]. cbn [List.map] in ND. inversion ND as [| ? ? N1 N2]; subst. cbn [filter]. destruct (is_stat_var y); [| apply IH; exact N2].
        cbn [List.map]. constructor; [| apply IH; exact N2]. intros I. apply N1. apply in_map_iff in I. destruct I as (z & E & I). apply filter_In in I. apply in_map_iff. exists z. tauto. }
      rewrite F, map_app in Q. clear - Q. induction (List.map fst pre) as [| y l IH]; [constructor |]. cbn [app] in Q. inversion Q as [| ? ? N1 N2]; subst. constructor; [intros I; apply N1; apply in_or_app; left; exact I | apply IH; exact N2]. }
    set (s0 := S4 [("step"%string, NInt 0); ("time"%string, NInt 0)] (s4_vars s) (match pre with [] => None | _ => Some ([], List.map (low i2d) pre) end)).
    assert (RE : read_vars4 cv s cells4 = read_vars4 cv s0 cells4).
    { unfold read_vars4, s0. cbn [s4_vars s4_stats]. rewrite ST. destruct (foldM _ _ _); cbn [bind]; [| reflexivity]. destruct pre; reflexivity. }
    assert (SP : sol_parts i2d [] cells' s0).
    { constructor.
      - exists (NInt 0), (NInt 0). repeat split.
      - assert (H' : has_all cells' = true). { unfold cells'. rewrite T3. reflexivity. } rewrite H'. exists a1, a2, a3. rewrite !G' by (unfold conserved; cbn [In]; tauto). unfold s0. cbn [s4_vars]. rewrite V, T3. auto.
      - unfold s0. cbn [s4_stats]. destruct pre as [| y l] eqn:EP; [exact FS |]. rewrite FS. split; [discriminate |]. split; [reflexivity |]. split; [exact NL | reflexivity]. }
    destruct (read_written i2d [] cells' s0 cv SP CV) as (d & R & D1 & D2 & D3).
    - unfold cells'. rewrite T3. reflexivity.
    - unfold cells'. rewrite T3. cbn [app List.map fst].
      assert (NC : forall n, In n conserved -> ~ In n (List.map fst pre)).
      { intros n I J. apply in_map_iff in J. destruct J as ((n', b) & <- & J). apply PI in J. destruct J as (_ & J). unfold is_stat_var in J; cbn [fst] in J. cbn [fst] in I. rewrite (conserved_not_stat n' I) in J. discriminate. }
      constructor; [| constructor; [| constructor; [| exact NP]]]; cbn [In]; intros Q; repeat (destruct Q as [Q | Q]; [discriminate |]); revert Q; apply NC; unfold conserved; cbn [In]; tauto.
    - intros name a I Q. unfold cells' in I. apply in_app_or in I. destruct I as [I | I].
      + apply three_in in I. destruct I as (I & G). apply (PC name); [apply (dget_in _ seqb_eq); exact G | left; exact I].
      + apply (PC name); [apply (PI _ I) | right; exact I].
    - exists d. rewrite RE. split; [exact R |]. split; [| split].
      + intros name a k I G. apply D1; [exact I | rewrite G' by exact I; exact G].
      + intros name a k I. apply D2; [unfold cells'; apply in_or_app; right; exact I |]. apply is_stat_iff. apply (PI _ I).
      + intros name I. apply D3 in I. destruct I as [I | (n & I & SN & E)]; [left; exact I |]. right. exists n. split; [| exact E].
        unfold cells' in I. rewrite map_app in I. apply in_app_or in I. destruct I as [I | I]; [| exact I]. exfalso. apply in_map_iff in I. destruct I as ((n', b) & <- & I). apply three_in in I. destruct I as (I & _).
        apply is_stat_iff in SN. cbn [fst] in SN. rewrite (conserved_not_stat n' I) in SN. discriminate.
  Qed.
End Put.
