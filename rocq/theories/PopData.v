(** * [Mesh.pop_nodedata], meshbase/_mesh.py:322-323. *)
From Verif Require Import Py IndexList Conn Mesh Data Ic3Bytes Ic3.

(** [dict.pop(name)] of a name that is there. *)
Fixpoint ddel {V} (name : string) (d : dict string V) : dict string V :=
  match d with [] => [] | (k, v) :: d' => if String.eqb name k then d' else (k, v) :: ddel name d' end.
(** [name in self._nodedata.keys()] holds for a dictionary and for a [DataSet]; a [DataSet] has no method [pop]. *)
Definition pop_nodedata (name : string) (fm : fmesh) : res (option array) * fmesh :=
  match fm_nodes fm with
  | FDict d => match dget String.eqb name d with
               | Some a => (Ok (Some a), FM (fm_mesh fm) (fm_cells fm) (FDict (ddel name d)) (fm_params fm) (fm_part fm))
               | None => (Ok None, fm)
               end
  | FSet d => (if dmem String.eqb name (ds_data d) then Err AttributeError else Ok None, fm)
  end.
(** Several of them, one after the other; an exception ends the sequence. *)
Fixpoint pop_all (names : list string) (fm : fmesh) : res (list (option array)) * fmesh :=
  match names with
  | [] => (Ok [], fm)
  | n :: l => match pop_nodedata n fm with
              | (Err e, fm) => (Err e, fm)
              | (Ok a, fm) => let '(r, fm) := pop_all l fm in (as_ <- r ;; Ok (a :: as_), fm)
              end
  end.
