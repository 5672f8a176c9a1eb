(** * C85: the XMF file is an XML document that says what was dumped. *)
From Coq Require Import Ascii Sorted Lia.
From Verif Require Import Py PyFacts Vtk VtkSpec VtkMeshProps Files FilesSpec FilesProofs Hdf5 Hdf5Spec Hdf5Proofs Hdf5Props XmlSpec XmlProofs.
Local Open Scope string_scope.

(** A text is at most one document: the trees below are what the text says, not one reading of it. *)
Theorem C85_one_tree : forall s t t', xml_elem s t -> xml_elem s t' -> t = t'.
Proof. intros s t t' H H'. exact (proj2 (proj1 one_tree s t H s t' "" "" H' eq_refl)). Qed.
Print Assumptions C85_one_tree.

Lemma ok_inj {A} (a b : A) : Ok a = Ok b -> a = b.
Proof. congruence. Qed.
Lemma attrs1 k v : xml_name k -> as_is v -> xml_attrs [(k, v)].
Proof. intros Hk Hv. split; [constructor; [split; assumption|constructor]|]. constructor; [intros []|constructor]. Qed.
Lemma attrs2 k v k' v' : k <> k' -> xml_name k -> as_is v -> xml_name k' -> as_is v' -> xml_attrs [(k, v); (k', v')].
Proof. intros Hne Hk Hv Hk' Hv'. split; [do 2 (constructor; [split; assumption|]); constructor|]. do 2 (constructor; [cbn; intuition|]). constructor. Qed.
Lemma attrs3 k v k' v' k'' v'' : k <> k' -> k <> k'' -> k' <> k'' -> xml_name k -> as_is v -> xml_name k' -> as_is v' -> xml_name k'' -> as_is v'' -> xml_attrs [(k, v); (k', v'); (k'', v'')].
Proof. intros H1 H2 H3 Hk Hv Hk' Hv' Hk'' Hv''. split; [do 3 (constructor; [split; assumption|]); constructor|]. do 3 (constructor; [cbn; intuition|]). constructor. Qed.

Lemma var_says {V} f k n (v : var V) ls : as_is f -> as_is n -> var_xdmf f k (n, v) = Ok ls -> says ls [attribute f k n v].
Proof.
  intros Hf Hn H. unfold var_xdmf in H. apply bind_ok in H. destruct H as (typ & Ht & H). apply ok_inj in H; subst.
  assert (Et : typ = match va_shape v with [_] => "Scalar" | _ => "Vector" end /\ as_is typ).
  { destruct (va_shape v) as [|a [|b [|c sh]]]; try discriminate; injection Ht as <-; split; try reflexivity; lit. }
  destruct Et as [Et Hty]. unfold attribute. rewrite <- Et. clear Et Ht.
  set (A := [("AttributeType", typ); ("Center", "Cell"); ("Name", n)]).
  assert (E : "<Attribute AttributeType=" ++ q ++ typ ++ q ++ " Center=" ++ q ++ "Cell" ++ q ++ " Name=" ++ q ++ n ++ q ++ ">" = tag "Attribute" A).
  { unfold tag, A. cbn [attrs_text fold_right fst snd]. unfold dquote, q. rewrite !sapp_assoc. cbn [append]. reflexivity. }
  rewrite E. clear E. change "</Attribute>" with (close "Attribute").
  apply (node_says "Attribute" A); [name|apply attrs3; try discriminate; try name; try lit; assumption|].
  apply item_says; [|exact Hf|].
  - apply as_is_concat; [lit|]. apply Forall_forall. intros x Hx. apply in_map_iff in Hx. destruct Hx as (d & <- & _). apply as_is_dec.
  - apply as_is_app; [lit|]. apply as_is_app; [apply as_is_step|]. apply as_is_app; [lit|exact Hn].
Qed.
Lemma vars_say {V} f k (d : list (string * var V)) : forall ls, as_is f -> (forall n v, In (n, v) d -> as_is n) -> mapM (var_xdmf f k) d = Ok ls ->
  says (List.concat ls) (List.map (fun kv => attribute f k (fst kv) (snd kv)) d).
Proof.
  induction d as [|(n, v) d IH]; intros ls Hf Hn H; cbn [mapM] in H; [apply ok_inj in H; subst; apply says_nil|].
  apply bind_ok in H. destruct H as (a & Ha & H). apply bind_ok in H. destruct H as (b & Hb & H). apply ok_inj in H; subst. cbn [List.concat List.map fst snd].
  change (attribute f k n v :: ?r) with ([attribute f k n v] ++ r)%list. apply says_app; [apply var_says; [exact Hf|apply (Hn n v); left; reflexivity|exact Ha]|].
  apply IH; [exact Hf|intros n' v' Hin; apply (Hn n' v'); right; exact Hin|exact Hb].
Qed.

Definition good_names {V} (dl : list (list (string * var V))) : Prop := forall d n v, In d dl -> In (n, v) d -> n <> "time" -> as_is n.

Lemma step_says {V} f geo npts topos k (d : list (string * var V)) ls : as_is f -> good_names [d] ->
  says geo (Node "Geometry" [("GeometryType", "XYZ")] [item (dec (3 * npts)) (f ++ ":/mesh/nodes")] :: topos) ->
  step_xdmf f geo k d = Ok ls -> says ls [step_tree f npts topos k d].
Proof.
  intros Hf Hn Hg H. unfold step_xdmf in H. apply bind_ok in H. destruct H as (vars & Hv & H). apply ok_inj in H; subst. unfold step_tree.
  set (A := [("Name", "Unstructured Mesh")]).
  change ("<Grid Name=" ++ q ++ "Unstructured Mesh" ++ q ++ ">") with (tag "Grid" A). change "</Grid>" with (close "Grid").
  assert (E : "<Time Value=" ++ q ++ dec k ++ q ++ "/>" = "<" ++ "Time" ++ attrs_text [("Value", dec k)] ++ "/>").
  { cbn [attrs_text fold_right fst snd]. unfold dquote, q. rewrite !sapp_assoc. cbn [append]. reflexivity. }
  rewrite E. clear E. set (T := "<" ++ "Time" ++ attrs_text [("Value", dec k)] ++ "/>").
  replace ([tag "Grid" A; T] ++ geo ++ List.concat vars ++ [close "Grid"])%list with ([tag "Grid" A] ++ ([T] ++ (geo ++ List.concat vars)) ++ [close "Grid"])%list by (cbn [app]; rewrite <- app_assoc; reflexivity).
  apply node_says; [name|apply attrs1; [name|lit]|].
  apply (says_app [T] _ [Node "Time" [("Value", dec k)] []]).
  - apply empty_says; [name|apply attrs1; [name|apply as_is_dec]].
  - match goal with |- says _ (?x :: ?a ++ ?b)%list => change (x :: a ++ b)%list with ((x :: a) ++ b)%list end.
    apply says_app; [exact Hg|]. apply vars_say; [exact Hf| |exact Hv].
    intros n v Hin. apply filter_In in Hin. destruct Hin as [Hin Hp]. apply (Hn d n v (or_introl eq_refl) Hin). intros ->. discriminate.
Qed.
Lemma steps_say {V} f geo npts topos (dl : list (list (string * var V))) : forall k ls, as_is f -> good_names dl ->
  says geo (Node "Geometry" [("GeometryType", "XYZ")] [item (dec (3 * npts)) (f ++ ":/mesh/nodes")] :: topos) ->
  steps_xdmf f geo k dl = Ok ls -> says ls (steps_tree f npts topos k dl).
Proof.
  induction dl as [|d dl IH]; intros k ls Hf Hn Hg H; cbn [steps_xdmf] in H; [apply ok_inj in H; subst; apply says_nil|].
  apply bind_ok in H. destruct H as (a & Ha & H). apply bind_ok in H. destruct H as (b & Hb & H). apply ok_inj in H; subst. cbn [steps_tree].
  apply (says_app a b [_]).
  - apply (step_says f geo); try assumption. intros d' n v [<-|[]]. apply (Hn d n v). left. reflexivity.
  - apply IH; try assumption. intros d' n v Hd. apply (Hn d' n v). right. exact Hd.
Qed.

Lemma total_nodes (n : nat) (cells : list (Z * list Z)) : (forall c, In c cells -> List.length (snd c) = n) -> List.length (flat_map snd cells) = (List.length cells * n)%nat.
Proof.
  induction cells as [|c cells IH]; intros H; [reflexivity|]. cbn [flat_map List.length]. rewrite app_length, IH, (H c (or_introl eq_refl)); [lia|]. intros c' Hc'. apply H. right. exact Hc'.
Qed.
Lemma topo_says f cs : as_is f -> Forall known_cell cs -> forall ts topo, (forall t, In t ts -> In t (List.map fst cs)) ->
  mapM (fun '(itype, cellco) =>
        x <- dget_err Z.eqb itype pyvista2xdmf ;;
        e <- dget_err Z.eqb itype ele_vtktype ;;
        Ok ([("<Topology NumberOfElements=" ++ q ++ zdec (zlen (m_rows cellco)) ++ q ++ " TopologyType=" ++ q ++ x ++ q ++ ">")%string]
            ++ data_item (zdec (mat_size cellco)) f ("/mesh/cells/" ++ e)%string ++ ["</Topology>"%string])%list) (List.map (fun t => (t, Mat (Some (size_of t)) (of_type cs t))) ts) = Ok topo ->
  exists topos, says (List.concat topo) topos /\
    Forall2 (fun t n => exists x e, In (t, x) [ (5, "Triangle"); (9, "Quadrilateral"); (10, "Tetrahedron"); (12, "Hexahedron"); (13, "Prism"); (14, "Pyramid") ]%Z /\
       In (t, e) [ (5, "tri3"); (9, "quad4"); (10, "tetra4"); (12, "hexa8"); (13, "prism6"); (14, "pyra5") ]%Z /\ n = topology f cs t x e) ts topos.
Proof.
  intros Hf Hk. induction ts as [|t ts IH]; intros topo Hin H; cbn [List.map mapM] in H.
  - apply ok_inj in H; subst. exists []. split; [apply says_nil|constructor].
  - apply bind_ok in H. destruct H as (a & Ha & H). apply bind_ok in H. destruct H as (b & Hb & H). apply ok_inj in H; subst.
    destruct (IH b (fun t' Ht' => Hin t' (or_intror Ht')) Hb) as (topos & Hs & H2).
    apply bind_ok in Ha. destruct Ha as (x & Hx & Ha). apply bind_ok in Ha. destruct Ha as (e & He & Ha). apply ok_inj in Ha; subst.
    assert (Hxe : In (t, x) [ (5, "Triangle"); (9, "Quadrilateral"); (10, "Tetrahedron"); (12, "Hexahedron"); (13, "Prism"); (14, "Pyramid") ]%Z /\
       In (t, e) [ (5, "tri3"); (9, "quad4"); (10, "tetra4"); (12, "hexa8"); (13, "prism6"); (14, "pyra5") ]%Z /\ as_is x /\ as_is e).
    { clear -Hx He. unfold dget_err in *. cbn [pyvista2xdmf dget] in Hx.
      repeat match type of Hx with match (if (?a =? ?b)%Z then _ else _) with _ => _ end = _ => destruct (Z.eqb_spec a b) as [->|_];
        [cbn in He; injection He as <-; injection Hx as <-; repeat split; try lit; cbn; tauto|] end; discriminate. }
    destruct Hxe as (Hx' & He' & Hax & Hae). exists (topology f cs t x e :: topos). split; [|constructor; [exists x, e; auto|exact H2]].
    cbn [List.concat]. apply (says_app _ _ [topology f cs t x e]); [|exact Hs].
    unfold topology. set (cells := filter (fun c => Z.eqb (fst c) t) cs).
    assert (E1 : zdec (zlen (m_rows (Mat (Some (size_of t)) (of_type cs t)))) = dec (List.length cells)).
    { unfold zdec, zlen, of_type. cbn [m_rows]. rewrite Nat2Z.id, map_length. reflexivity. }
    assert (E2 : zdec (mat_size (Mat (Some (size_of t)) (of_type cs t))) = dec (List.length (flat_map snd cells))).
    { unfold zdec, mat_size, zlen, of_type. cbn [m_rows m_cols]. rewrite map_length, <- Nat2Z.inj_mul, Nat2Z.id. fold cells. f_equal. symmetry. apply total_nodes.
      intros c Hc. unfold cells in Hc. apply filter_In in Hc. destruct Hc as [Hc Et]. apply Z.eqb_eq in Et. rewrite Forall_forall in Hk. destruct (Hk c Hc) as (e' & He1 & Hsz).
      unfold size_of. rewrite <- Et, (nnode_of _ _ _ He1 Hsz). unfold zlen. lia. }
    rewrite E1, E2. clear E1 E2. set (A := [("NumberOfElements", dec (List.length cells)); ("TopologyType", x)]).
    assert (E : "<Topology NumberOfElements=" ++ q ++ dec (List.length cells) ++ q ++ " TopologyType=" ++ q ++ x ++ q ++ ">" = tag "Topology" A).
    { unfold tag, A. cbn [attrs_text fold_right fst snd]. unfold dquote, q. rewrite !sapp_assoc. cbn [append]. reflexivity. }
    rewrite E. clear E. change "</Topology>" with (close "Topology").
    apply (node_says "Topology" A); [name|apply attrs2; try discriminate; try name; [apply as_is_dec|exact Hax]|].
    apply item_says; [apply as_is_dec|exact Hf|]. apply as_is_app; [lit|exact Hae].
Qed.

(** When the name of the file and those of the arrays need no escape in XML, the text written in the XMF
    file is an XML document, and its tree is the one expected: a temporal collection with, for each time
    step, its number, the points, the cells type by type and the arrays, each with a reference to where
    it is in the HDF5 file. *)
Theorem C85_document : forall F V ver f (g : grid (list F)) cs (dl : list (dict string (var V))) h lines,
  grid_of g cs -> Forall known_cell cs -> as_is f -> good_names dl ->
  list_dumphdf ver f g dl = Ok (h, Ok lines) ->
  exists topos, topologies f cs topos /\ xml_elem (String.concat newline lines) (xmf_tree f (List.length (g_points g)) topos dl).
Proof.
  intros F V ver f g cs dl h lines Hg Hk Hf Hn H. unfold list_dumphdf in H. apply bind_ok in H. destruct H as (m & _ & H). apply bind_ok in H. destruct H as (h' & _ & H). injection H as _ H.
  apply bind_ok in H. destruct H as (geo & Hgeo & H). apply bind_ok in H. destruct H as (content & Hc & H). apply ok_inj in H; subst lines.
  unfold mesh_xdmf in Hgeo. rewrite (cells_dict_ok g cs Hg Hk) in Hgeo. cbn [bind] in Hgeo. apply bind_ok in Hgeo. destruct Hgeo as (topo & Ht & Hgeo). apply ok_inj in Hgeo.
  destruct (topo_says f cs Hf Hk (np_unique (List.map fst cs)) topo) as (topos & Hs & H2); [intros t; apply np_unique_in|exact Ht|].
  exists topos. split.
  { exists (np_unique (List.map fst cs)). split; [apply np_unique_sorted|]. split; [intros t; apply np_unique_in|exact H2]. }
  assert (Hsg : says geo (Node "Geometry" [("GeometryType", "XYZ")] [item (dec (3 * List.length (g_points g))) (f ++ ":/mesh/nodes")] :: topos)).
  { rewrite <- Hgeo. change ("<Geometry GeometryType=" ++ q ++ "XYZ" ++ q ++ ">") with (tag "Geometry" [("GeometryType", "XYZ")]). change "</Geometry>" with (close "Geometry").
    replace ([tag "Geometry" [("GeometryType", "XYZ")]] ++ data_item (zdec (zlen (g_points g) * 3)) f "/mesh/nodes" ++ [close "Geometry"] ++ List.concat topo)%list
      with (([tag "Geometry" [("GeometryType", "XYZ")]] ++ data_item (zdec (zlen (g_points g) * 3)) f "/mesh/nodes" ++ [close "Geometry"]) ++ List.concat topo)%list by (rewrite <- !app_assoc; reflexivity).
    apply (says_app _ _ [_]); [|exact Hs]. apply node_says; [name|apply attrs1; [name|lit]|].
    assert (E : zdec (zlen (g_points g) * 3) = dec (3 * List.length (g_points g))). { unfold zdec, zlen. f_equal. lia. }
    rewrite E. apply (item_says _ f "/mesh/nodes"); [apply as_is_dec|exact Hf|lit]. }
  unfold dl_xdmf in Hc. apply bind_ok in Hc. destruct Hc as (steps & Hst & Hc). apply ok_inj in Hc; subst content.
  pose proof (steps_say f geo (List.length (g_points g)) topos dl 0 steps Hf Hn Hsg Hst) as Hsay.
  unfold xmf_tree. set (A := [("Name", "IC3"); ("GridType", "Collection"); ("CollectionType", "Temporal")]).
  match goal with |- xml_elem (String.concat newline ?L) _ =>
    replace L with ([tag "Xdmf" [("Version", "3.0")]] ++ ([tag "Domain" []] ++ ([tag "Grid" A] ++ steps ++ [close "Grid"]) ++ [close "Domain"]) ++ [close "Xdmf"])%list end.
  2:{ cbn [app]. rewrite <- !app_assoc. cbn [app]. reflexivity. }
  apply (node_elem "Xdmf" [("Version", "3.0")] ([tag "Domain" []] ++ ([tag "Grid" A] ++ steps ++ [close "Grid"]) ++ [close "Domain"])%list); [name|apply attrs1; [name|lit]|].
  apply (node_says "Domain" [] ([tag "Grid" A] ++ steps ++ [close "Grid"])%list); [name|split; constructor|]. apply (node_says "Grid" A steps); [name| |exact Hsay].
  apply attrs3; try discriminate; try name; lit.
Qed.
Print Assumptions C85_document.

(** XDMF has no name here for lines: with one such cell, KeyError, while the HDF5 file is complete and
    there is no XMF file. *)
Theorem C85_lines : forall F V ver f (g : grid (list F)) cs (dl : list (dict string (var V))) h x,
  grid_of g cs -> Forall known_cell cs -> In 3%Z (g_types g) -> list_dumphdf ver f g dl = Ok (h, x) -> x = Err KeyError.
Proof.
  intros F V ver f g cs dl h x Hg Hk H3 H. unfold list_dumphdf in H. apply bind_ok in H. destruct H as (m & _ & H). apply bind_ok in H. destruct H as (h' & _ & H). injection H as _ <-.
  unfold mesh_xdmf. rewrite (cells_dict_ok g cs Hg Hk). cbn [bind].
  rewrite (go_types _ _ Hg), <- np_unique_in in H3. pose proof (np_unique_sorted (List.map fst cs)) as Hs.
  unfold type_mats. assert (Hmin : forall t, In t (np_unique (List.map fst cs)) -> (3 <= t)%Z).
  { intros t Ht. apply (types_known cs t Hk) in Ht. cbn in Ht. repeat destruct Ht as [Ht|Ht]; try (injection Ht as _ <-; lia). destruct Ht. }
  destruct (np_unique (List.map fst cs)) as [|t ts]; [destruct H3|]. assert (t = 3%Z) as ->.
  { apply StronglySorted_inv in Hs. destruct Hs as [_ Hall]. rewrite Forall_forall in Hall. pose proof (Hmin t (or_introl eq_refl)). destruct H3 as [H3|H3]; [exact H3|]. specialize (Hall _ H3). lia. }
  cbn [List.map mapM]. reflexivity.
Qed.
Print Assumptions C85_lines.

(** ** Cases *)
Example ex_doc_names : as_is "out.hdf" /\ good_names (ex_dl "rho" [2%Z]).
Proof.
  split; [lit|]. intros d n v Hd Hin Hnt. assert (n = "rho") as ->; [|lit]. cbn in Hd. destruct Hd as [<-|[<-|[]]]; destruct Hin as [Hin|[Hin|[]]]; injection Hin as <- _; congruence.
Qed.
(** The document of the case of C62: two steps, a triangle, a quadrangle and one array. *)
Example ex_document : exists h lines, list_dumphdf "0.6" "out.hdf" ex_grid (ex_dl "rho" [2%Z]) = Ok (h, Ok lines) /\
  exists topos, topologies "out.hdf" ex_cells topos /\ xml_elem (String.concat newline lines) (xmf_tree "out.hdf" 5 topos (ex_dl "rho" [2%Z])).
Proof.
  destruct (list_dumphdf "0.6" "out.hdf" ex_grid (ex_dl "rho" [2%Z])) as [[h [lines|e]]|e] eqn:E; [|exfalso; revert E; vm_compute; discriminate|exfalso; revert E; vm_compute; discriminate].
  exists h, lines. split; [reflexivity|]. destruct ex_grid_of as (Hg & Hk & _ & _). destruct ex_doc_names as [Hf Hn].
  exact (C85_document _ _ "0.6" "out.hdf" ex_grid ex_cells (ex_dl "rho" [2%Z]) h lines Hg Hk Hf Hn E).
Qed.
(** A name with a markup character is written as it is, which XML does not allow. *)
Example ex_markup : match list_dumphdf "0.6" "out.hdf" ex_grid (ex_dl "p<0" [2%Z]) with
  | Ok (_, Ok lines) => existsb (String.eqb ("<Attribute AttributeType=" ++ q ++ "Scalar" ++ q ++ " Center=" ++ q ++ "Cell" ++ q ++ " Name=" ++ q ++ "p<0" ++ q ++ ">")) lines
  | _ => false end = true.
Proof. vm_compute. reflexivity. Qed.
