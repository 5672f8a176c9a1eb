(** * What an HDF5 file of IC3 holds, as the solver that reads it expects it: names, numbers of kinds, order of the values. *)
From Coq Require Import ZArith List Bool String Ascii Permutation Sorted.
From Verif Require Import Py Conn Mesh Data Ic3 Ic3HeaderSpec Ic3FileSpec Ic3RoundSpec Ic3V4 Ic3V4Spec Ic3LayoutSpec.

(** A zone: its first face, its name and the number of its kind. *)
Definition zone4 (kb : string * mark Z) (r : Z * string * Z) : Prop :=
  exists t n lo hi, mk_type (snd kb) = Some t /\ kind_number t n /\ mk_index (snd kb) = Some (ILrange lo hi) /\ r = (lo, fst kb, n).
(** The periodic marks, with the first three of their numbers. *)
Definition periods (m : mesh Z) : dict string (list Z) :=
  flat_map (fun kb => match mk_perio (snd kb) with Some (Some l) => [(fst kb, firstn 3 l)] | _ => [] end) (zone_marks m).

(** The mesh file of a mesh whose faces have the nodes [ls] and the cells [rows]. *)
Definition holds_mesh (m : mesh Z) (ls rows : list (list Z)) (f : mesh4) : Prop :=
  exists pts zones sorted b,
    points_of m pts /\ Forall2 zone4 (zone_marks m) zones /\
    Permutation sorted (zones ++ [(marks_end m + 1, "internal-domain"%string, 6)]) /\
    StronglySorted (fun a b => fst (fst a) <= fst (fst b)) sorted /\
    m4_no f = me_nnode m /\ m4_fa f = me_nface m /\ m4_cv f = me_ncell m /\ m4_coords f = List.concat pts /\
    (forall c, me_cell2node m = Some c -> exists l, m4_cells f = Some l /\ Forall2 (fun te te' => fst te' = fst te /\ snd te' = ed_e2n (snd te)) (ec_dict c) l) /\
    m4_cvofa f = List.concat rows /\ m4_noofa_i f = List.map zlen ls /\ m4_noofa_v f = List.concat ls /\ m4_bounds f = Some b /\
    b4_labels b = List.map (fun z => snd (fst z)) sorted /\ b4_offsets b = List.map (fun z => fst (fst z)) sorted ++ [me_nface m] /\
    b4_kinds b = List.map snd sorted /\ b4_perio b = periods m.

(** A variable, under its name in small letters, as floats. *)
Definition var4 (i2d : Z -> Z) (x : string * array) (y : string * list Z) : Prop :=
  recased capitals smalls (fst x) (fst y) /\ snd y = array_doubles i2d (snd x).
(** [l'] is [l] without the elements out of [P], in the same order. *)
Inductive only {A : Type} (P : A -> Prop) : list A -> list A -> Prop :=
| only_nil : only P [] []
| only_in x l l' : P x -> only P l l' -> only P (x :: l) (x :: l')
| only_out x l l' : ~ P x -> only P l l' -> only P (x :: l) l'.
Definition is_num (x : string * sval) (y : string * num) : Prop := fst y = fst x /\ snd x = SNum (snd y).

(** The solution file: step and time, the three conserved variables or none of them, and the statistics with their weights. *)
Definition holds_solution (i2d : Z -> Z) (fm : fmesh) (s : sol4) : Prop :=
  let cells := fd_items (fm_cells fm) in
  exists step time stats weights,
    setting fm "step" = SNum step /\ setting fm "time" = SNum time /\ s4_attrs s = [("step"%string, step); ("time"%string, time)] /\
    (forall a b c, dget String.eqb "RHO" cells = Some a -> dget String.eqb "RHOU" cells = Some b -> dget String.eqb "RHOE" cells = Some c ->
       s4_vars s = [("rho"%string, array_doubles i2d a); ("rhou"%string, array_doubles i2d b); ("rhoe"%string, array_doubles i2d c)]) /\
    (forall name, In name ["RHO"; "RHOU"; "RHOE"]%string -> dget String.eqb name cells = None -> s4_vars s = []) /\
    only (fun x => stat_name (fst x)) cells stats /\ only (fun x => weight_name (fst x)) (fm_params fm) weights /\
    match s4_stats s with
    | None => stats = []
    | Some (ws, vars) => stats <> [] /\ Forall2 is_num weights ws /\ Forall2 (var4 i2d) stats vars
    end.
