(** Line plots of a product (ui/inspect.py).  Definitions only.

    As in InspModel only the data handed to the plotting library is kept.  The
    widgets of a notebook are kept with their options and values after the
    handlers have run. *)
From Coq Require Import String List ZArith Reals Bool Arith DecimalString.
From Verif Require Import Common InspModel.
Import ListNotations.
Open Scope string_scope.

Inductive cerr :=
| CVariable (name : string)   (* IndexError of the library: no such variable *)
| CKind                       (* not a one-dimensional variable: left out of the model *)
| CLengths                    (* ValueError of the library: x and y differ in length *)
| CNone                       (* IndexError: nothing to offer *)
| CIndex.                     (* IndexError: index out of range *)

(** [np.arange(0, n)] *)
Definition arange (n : nat) : list R := map INR (seq 0 n).

(** [_plot_line] (inspect.py 472-493): the points of the curve, and the name of
    the figure when it is saved. *)
Definition line_data (d : dataset) (v : string) : res cerr (list R) :=
  if has d v then match d_dims d v with [_] => Ok (d_vec d v) | _ => Err CKind end else Err (CVariable v).
Definition plot_line (d : dataset) (x y : string) : res cerr (list (R * R)) :=
  bind (line_data d y) (fun ys =>
  bind (if (x =? "index")%string then Ok (arange (List.length ys)) else line_data d x) (fun xs =>
  if (List.length xs =? List.length ys)%nat then Ok (combine xs ys) else Err CLengths)).
Definition line_name (x y : string) : string := ("fig-" ++ x ++ "-over-" ++ y ++ ".png")%string.

Section Widgets.
Variable sort : list string -> list string.   (* sorted() *)
Variable d : dataset.

Definition eq_dims (a b : list string) : bool := if list_eq_dec string_dec a b then true else false.
(** dim_names_to_var_names (inspect.py 94-100) *)
Definition group (dims : list string) : list string := filter (fun v => eq_dims (d_dims d v) dims) (d_names d).
(** inspect.py 399-407: dimensions that are not empty with more than one variable *)
Definition line_dim (n : string) : bool := (0 <? d_size d n)%nat && (1 <? List.length (group [n]))%nat.
Definition valid_names : list string :=
  sort (filter (fun v => match d_dims d v with [n] => line_dim n | _ => false end) (d_names d)).
Definition valid_dims : list string :=
  sort (nodup string_dec (flat_map (fun v => match d_dims d v with [n] => if line_dim n then [n] else [] | _ => [] end) (d_names d))).

Record panel := { p_xs : list string; p_ys : list string; p_x : string; p_y : string }.
(** [v if v and v in options else options[0]] *)
Definition pick (v : option string) (options : list string) : res cerr string :=
  match options with
  | [] => Err CNone
  | o :: _ => Ok (match v with
                  | Some s => if negb (s =? "")%string && existsb (String.eqb s) options then s else o
                  | None => o
                  end)
  end.
(** [line] without one of the names, without a dimension selector (446-452):
    the handler is attached after the values have been set. *)
Definition start_line (x y : option string) : res cerr panel :=
  bind (pick y valid_names) (fun yv =>
  bind (pick x ("index" :: valid_names)) (fun xv =>
  Ok {| p_xs := "index" :: valid_names; p_ys := valid_names; p_x := xv; p_y := yv |})).
(** on_widget_x_change (455-462); nothing happens when the value stays *)
Definition choose_x (p : panel) (x : string) : res cerr panel :=
  if (x =? p_x p)%string then Ok p
  else let ys := if (x =? "index")%string then valid_names else sort (group (d_dims d x)) in
       bind (pick None ys) (fun y => Ok {| p_xs := p_xs p; p_ys := ys; p_x := x; p_y := y |}).
Definition choose_y (p : panel) (y : string) : panel := {| p_xs := p_xs p; p_ys := p_ys p; p_x := p_x p; p_y := y |}.

(** [line] with a dimension selector (409-420) and on_widget_dim_change (427-432) *)
Definition start_dim (x y : option string) : res cerr panel :=
  bind (pick None valid_dims) (fun n =>
  let ys := sort (group [n]) in
  bind (pick y ys) (fun yv =>
  bind (pick x ("index" :: ys)) (fun xv =>
  Ok {| p_xs := "index" :: ys; p_ys := ys; p_x := xv; p_y := yv |}))).
Definition choose_dim (n : string) : res cerr panel :=
  let ys := sort (group [n]) in
  bind (pick None ys) (fun y => Ok {| p_xs := "index" :: ys; p_ys := ys; p_x := "index"; p_y := y |}).
(** With the selector another x or y leaves the rest as it is (435-440). *)
Definition set_x (p : panel) (x : string) : panel := {| p_xs := p_xs p; p_ys := p_ys p; p_x := x; p_y := p_y p |}.
End Widgets.

(** * Image with lines *)

(** Python index of a list of length [n] *)
Definition py_index (n : nat) (i : Z) : option nat :=
  if (0 <=? i)%Z then if (i <? Z.of_nat n)%Z then Some (Z.to_nat i) else None
  else if (- Z.of_nat n <=? i)%Z then Some (Z.to_nat (Z.of_nat n + i)) else None.
Definition at_index {A} (l : list A) (i : Z) : res cerr A :=
  match py_index (List.length l) i with
  | Some k => match nth_error l k with Some x => Ok x | None => Err CIndex end
  | None => Err CIndex
  end.
Fixpoint all_ok {A} (l : list (res cerr A)) : res cerr (list A) :=
  match l with
  | [] => Ok []
  | Ok x :: r => bind (all_ok r) (fun v => Ok (x :: v))
  | Err e :: _ => Err e
  end.
(** [z_var[yind]] over the columns (inspect.py 573-577) *)
Definition row_curve (z : list (list R)) (yind : Z) : res cerr (list (R * R)) :=
  bind (at_index z yind) (fun row => Ok (combine (arange (List.length row)) row)).
(** [z_var[:, xind]], drawn to the right of the image (579-583): the value comes
    first *)
Definition column_curve (z : list (list R)) (xind : Z) : res cerr (list (R * R)) :=
  bind (all_ok (map (fun row => at_index row xind) z)) (fun col => Ok (combine col (arange (List.length col)))).
(** ax3.axvline, ax3.axhline (592-595): where the lines are drawn in the image *)
Definition marker (ind : Z) : R := IZR ind.
(** 604-611 *)
Definition zdec (z : Z) : string := NilZero.string_of_int (Z.to_int z).
Definition im_line_name (z : string) (xind yind : option Z) : string :=
  match xind, yind with
  | Some x, Some y => ("fig-" ++ z ++ "-x-" ++ zdec x ++ "-y-" ++ zdec y ++ ".png")%string
  | Some x, None => ("fig-" ++ z ++ "-x-" ++ zdec x ++ ".png")%string
  | None, Some y => ("fig-" ++ z ++ "-y-" ++ zdec y ++ ".png")%string
  | None, None => ("fig-" ++ z ++ ".png")%string
  end.
(** [waveform_line] outside a notebook and [_plot_waveform_line] (319-346): the
    curve, the one of the reference, and the index in the name of the figure *)
Definition waveform_line (waves : list (list R)) (samples : nat) (ind ref : option Z)
    : res cerr (list (R * R) * option (list (R * R)) * Z) :=
  let i := match ind with Some i => i | None => 0%Z end in
  let curve k := bind (at_index waves k) (fun row =>
                   if (List.length row =? samples)%nat then Ok (combine (arange samples) row) else Err CLengths) in
  bind (curve i) (fun c =>
  match ref with
  | None => Ok (c, None, i)
  | Some k => bind (curve k) (fun r => Ok (c, Some r, i))
  end).
