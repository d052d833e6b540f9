(** Inspection and comparison of products (ui/inspect.py, ui/compare.py).
    Definitions only.

    Values read from a variable are real numbers; masked entries are not
    modelled.  Of a plot only the data and the limits handed to the plotting
    library are kept. *)
From Coq Require Import String List ZArith Reals Bool Arith.
From Verif Require Import Common.
Import ListNotations.
Open Scope string_scope.
Open Scope R_scope.

(** An open netCDF file: names of its variables, their dimensions, sizes of the
    dimensions and the values of one- and two-dimensional variables. *)
Record dataset := {
  d_names : list string;
  d_dims : string -> list string;
  d_size : string -> nat;
  d_vec : string -> list R;
  d_mat : string -> list (list R)
}.

Inductive ierr :=
| ENeither                    (* ValueError, inspect.py 87-88 *)
| EVariable (name : string)   (* IndexError of the library *)
| EEmptyRange                 (* ValueError of [min()] without values *)
| EBroadcast
| EShapes.                    (* ValueError, compare.py 75-77 *)

Inductive kind := L1B | L1BS.
Definition kind_name (k : kind) : string := match k with L1B => "l1b" | L1BS => "l1bs" end.

(** ['..._%s_echo_sar_ku' % product_type] *)
Definition var_of (base : string) (k : kind) : string :=
  (base ++ "_" ++ kind_name k ++ "_echo_sar_ku")%string.

Definition has (d : dataset) (x : string) : bool := existsb (String.eqb x) (d_names d).

(** inspect.py 81-88 *)
Definition kind_of (d : dataset) : res ierr kind :=
  if has d "time_l1bs_echo_sar_ku" then Ok L1BS
  else if has d "time_l1b_echo_sar_ku" then Ok L1B
  else Err ENeither.

Definition read_vec (d : dataset) (x : string) : res ierr (list R) :=
  if has d x then Ok (d_vec d x) else Err (EVariable x).
Definition read_mat (d : dataset) (x : string) : res ierr (list (list R)) :=
  if has d x then Ok (d_mat d x) else Err (EVariable x).

(** [a.min(), a.max()] of numpy *)
Definition extent (l : list R) : res ierr (R * R) :=
  match l with
  | [] => Err EEmptyRange
  | x :: r => Ok (fold_left Rmin r x, fold_left Rmax r x)
  end.

(** [waveform_scaling.reshape(n, 1) * waveform_counts] (inspect.py 119-123) *)
Definition scaled (s : list R) (m : list (list R)) : res ierr (list (list R)) :=
  if (List.length s =? List.length m)%nat
  then Ok (map (fun p => map (Rmult (fst p)) (snd p)) (combine s m))
  else Err EBroadcast.

Record inspector := {
  i_kind : kind;
  i_lat : list R; i_lon : list R; i_time : list R;
  i_waves : list (list R);      (* waveform *)
  i_range : R * R               (* waveform_range *)
}.

(** [L1bProductInspector.__init__] (inspect.py 67-128); the attributes and the
    tables of names are left out, and so is the conversion of times to dates
    (the writers declare [units] and [calendar] of every time variable). *)
Definition inspect (d : dataset) : res ierr inspector :=
  bind (kind_of d) (fun k =>
  bind (read_vec d (var_of "lat" k)) (fun lat =>
  bind (read_vec d (var_of "lon" k)) (fun lon =>
  bind (extent lat) (fun _ =>
  bind (extent lon) (fun _ =>
  bind (read_vec d (var_of "time" k)) (fun time =>
  bind (extent time) (fun _ =>
  bind (read_mat d (var_of "i2q2_meas_ku" k)) (fun counts =>
  bind (read_vec d (var_of "scale_factor_ku" k)) (fun scaling =>
  bind (scaled scaling counts) (fun waves =>
  bind (extent (List.concat waves)) (fun r =>
    Ok {| i_kind := k; i_lat := lat; i_lon := lon; i_time := time;
          i_waves := waves; i_range := r |}))))))))))).

(** * Plots *)

(** [v if v else d]: zero is not true. *)
Definition given (v : option R) (d : R) : R :=
  match v with
  | Some x => if Req_EM_T x 0 then d else x
  | None => d
  end.

Record image := { im_data : list (list R); im_lo : R; im_hi : R }.

(** [waveform_im] (inspect.py 212-216) *)
Definition waveform_im (i : inspector) (vmin vmax : option R) : image :=
  {| im_data := i_waves i; im_lo := given vmin (fst (i_range i)); im_hi := given vmax (snd (i_range i)) |}.

(** Limits of a histogram (inspect.py 297-299, compare.py 230-232,
    270-272, 293-295, 313-315). *)
Definition hist_limits (r : R * R) (vmin vmax : option R) : R * R :=
  let lo := given vmin (fst r) in
  let hi := given vmax (snd r) in
  (lo, if Req_EM_T lo hi then lo + 1 else hi).
Definition waveform_hist (i : inspector) (vmin vmax : option R) : R * R :=
  hist_limits (i_range i) vmin vmax.

(** [ax.set_zlim3d] (inspect.py 280): the arguments are compared with
    [None]. *)
Definition zlim (i : inspector) (zmin zmax : option R) : R * R :=
  (match zmin with Some z => z | None => fst (i_range i) end,
   match zmax with Some z => z | None => snd (i_range i) end).

(** [_plot_im] (inspect.py 364-386): [None] when an error is printed.  The
    image drawn is that of line 377. *)
Definition plot_im (d : dataset) (i : inspector) (z : string) (zmin zmax : option R)
    : res ierr (option image) :=
  if negb (has d z) then Ok None
  else if negb (List.length (d_dims d z) =? 2)%nat then Ok None
  else
    bind (extent (List.concat (d_mat d z))) (fun r =>
    Ok (Some {| im_data := i_waves i; im_lo := given zmin (fst r); im_hi := given zmax (snd r) |})).

(** [im] (inspect.py 348-362): the arguments as passed on, for a name given
    and for a name [z] chosen in the notebook. *)
Definition im_named (d : dataset) (i : inspector) (z : string) (zmin zmax : option R) :=
  plot_im d i z zmin zmax.
Definition im_chosen (d : dataset) (i : inspector) (z : string) (zmin zmax : option R) :=
  plot_im d i z zmax zmax.

(** [im_line] outside a notebook (inspect.py 536-539), without the two line
    plots: [_plot_im_line] (541-611) treats data and limits as [_plot_im]. *)
Definition im_line (d : dataset) (i : inspector) (z : string) (zmin zmax : option R) :=
  plot_im d i z zmin zmin.

(** Names offered by [im] (inspect.py 351-356): sorted names of the variables
    with two dimensions, none of size 0. *)
Definition offered (sort : list string -> list string) (d : dataset) : list string :=
  sort (filter (fun z => (List.length (d_dims d z) =? 2)%nat &&
                         forallb (fun n => (0 <? d_size d n)%nat) (d_dims d z)) (d_names d)).

(** * Comparison (compare.py 65-83) *)

Record comparator := { c_1 : inspector; c_2 : inspector; c_delta : list (list R); c_range : R * R }.

Definition shape_of (m : list (list R)) : nat * nat :=
  (List.length m, match m with [] => 0%nat | r :: _ => List.length r end).

Definition minus_rows (p : list R * list R) : list R :=
  map (fun q => fst q - snd q) (combine (fst p) (snd p)).

Definition compare_products (i1 i2 : inspector) : res ierr comparator :=
  let s1 := shape_of (i_waves i1) in
  let s2 := shape_of (i_waves i2) in
  if (fst s1 =? fst s2)%nat && (snd s1 =? snd s2)%nat then
    let delta := map minus_rows (combine (i_waves i1) (i_waves i2)) in
    bind (extent (List.concat delta)) (fun r =>
    Ok {| c_1 := i1; c_2 := i2; c_delta := delta; c_range := r |})
  else Err EShapes.

(** [waveforms_hist], [waveforms_scatter], [waveforms_hexbin] (compare.py
    230-232, 293-295, 313-315): limits of the axes on which the waveforms of
    both products are drawn; [waveforms_delta_hist] (270-272): those of the
    differences. *)
Definition waveforms_axis (c : comparator) (vmin vmax : option R) : R * R :=
  hist_limits (c_range c) vmin vmax.
Definition delta_axis (c : comparator) (vmin vmax : option R) : R * R :=
  hist_limits (c_range c) vmin vmax.
