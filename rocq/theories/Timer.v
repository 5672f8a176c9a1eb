(** * Model of [api.Timer] (cfdtools/api.py:119-187).

    Clock readings ([time.perf_counter()]) are arguments.  Times are real numbers, with the rounding of
    double precision after each operation (no overflow).  [nelem] is a Python int.  Log messages are not
    modelled, except for the time that [stop] reports; neither are the layout fields [_ncol], [_ltab]
    and [_msg]. *)
From Coq Require Import Reals.
From Flocq Require Import Core.
From Verif Require Export Py.

(** Rounding to double precision. *)
Definition fl (x : R) : R := round radix2 (FLT_exp (-1074) 53) ZnearestE x.

Record timer : Type := Timer_ { tm_start : option R; tm_task : string; tm_elapsed : R; tm_nelem : option Z }.

(** [__init__] and [reset], api.py:123-134. *)
Definition new_timer (task : string) (nelem : option Z) : timer := Timer_ None task 0%R nelem.
Definition reset (t : timer) : timer := Timer_ None "" 0%R (tm_nelem t).

(** [start], api.py:140-144. *)
Definition start (now : R) (t : timer) : res unit * timer :=
  match tm_start t with
  | Some _ => (Err TimerError, t)
  | None => (Ok tt, Timer_ (Some now) (tm_task t) (tm_elapsed t) (tm_nelem t))
  end.
(** [pause], api.py:146-151. *)
Definition pause (now : R) (t : timer) : res unit * timer :=
  match tm_start t with
  | None => (Err TimerError, t)
  | Some s => (Ok tt, Timer_ None (tm_task t) (fl (tm_elapsed t + fl (now - s))) (tm_nelem t))
  end.
(** [stop], api.py:153-172: the reported time; a normalisation by no element fails after the pause. *)
Definition stop (nelem : option Z) (now : R) (t : timer) : res R * timer :=
  let t := match nelem with None => t | Some n => Timer_ (tm_start t) (tm_task t) (tm_elapsed t) (Some n) end in
  match pause now t with
  | (Err e, t) => (Err e, t)
  | (Ok _, t) =>
      match tm_nelem t with
      | Some 0 => (Err ZeroDivisionError, t)
      | _ => (Ok (tm_elapsed t), reset t)
      end
  end.

(** [with timer: body], api.py:174-187: [__enter__] is [start], [__exit__] is [stop()], called whether or
    not the body fails; an exception of [__exit__] hides that of the body. *)
Definition with_timer {A} (t0 t1 : R) (body : timer -> res A * timer) (t : timer) : res A * timer :=
  match start t0 t with
  | (Err e, t) => (Err e, t)
  | (Ok _, t) => let '(r, t) := body t in
                 match stop None t1 t with
                 | (Err e, t) => (Err e, t)
                 | (Ok _, t) => (r, t)
                 end
  end.

(** The operations of a user. *)
Inductive op : Type := Reset | Start (now : R) | Pause (now : R) | Stop (nelem : option Z) (now : R).
Definition apply_op (o : op) (t : timer) : res (option R) * timer :=
  match o with
  | Reset => (Ok None, reset t)
  | Start now => let '(r, t) := start now t in (_ <- r ;; Ok None, t)
  | Pause now => let '(r, t) := pause now t in (_ <- r ;; Ok None, t)
  | Stop n now => let '(r, t) := stop n now t in (e <- r ;; Ok (Some e), t)
  end.
(** The outcomes of a sequence of operations (the user catches the exceptions), and the timer at the end. *)
Fixpoint run_ops (l : list op) (t : timer) : list (op * res (option R)) * timer :=
  match l with
  | [] => ([], t)
  | o :: l => let '(r, t) := apply_op o t in let '(tr, t) := run_ops l t in ((o, r) :: tr, t)
  end.
