(** The values derived from the characterisation file (dedop/conf/characterization.py
    108-146) and the making of a processor (dedop/proc/sar/processor.py 40-104,
    dedop/cli/main.py 1262-1279).  Definitions only. *)
From Coq Require Import String List ZArith QArith Bool.
From Verif Require Import Common Dict ConfModel ConfData.
Import ListNotations.
Local Open Scope string_scope.
Local Open Scope Q_scope.

(** Errors of the configuration (ConfModel), [ZeroDivisionError], [ValueError] of
    the processor, a file that cannot be opened or parsed, an error while the
    algorithms collect their parameters. *)
Inductive derr := DConf (e : cerr) | DZero | DValue | DOpen | DCollect.

Definition is_null (j : json) : bool := match j with JNull => true | _ => false end.
Definition is_float (j : json) : bool := match j with JNum _ => true | _ => false end.

Section Numbers.
(** Python's [float(text)]: not modelled, any function.  Numbers are exact
    rationals, without rounding, NaN or infinities. *)
Variable text : string -> option Q.

(** [float(value)]. *)
Definition to_float (j : json) : res cerr json :=
  match j with
  | JNum q => Ok (JNum q)
  | JBool b => Ok (JNum (if b then 1 else 0))
  | JStr s => match text s with Some q => Ok (JNum q) | None => Err EConv end
  | _ => Err EConv
  end.
(** A parameter of type float, e.g. characterization.py 29-32: auxiliary_parameter.py
    16-61 (the cache of the descriptor does not show: C42_reads). *)
Definition float_param (name : string) : @aparam json := mk_param is_null name (Some (to_float, is_float)) None false JNull.
Definition number (c : fclass) (data : dict json) (name : string) : res derr Q :=
  match compute is_null (float_param name) {| o_class := c; o_data := data |} with
  | Ok (JNum q) => Ok q
  | Ok _ => Err (DConf EParamType)
  | Err e => Err (DConf e)
  end.
(** Python's [/]. *)
Definition over (a b : Q) : res derr Q := if Qeq_bool b 0 then Err DZero else Ok (a / b).

(** A characterisation file object: its data, [_wv_length_ku] and
    [_chirp_slope_ku] (134-146). *)
Record chd := mk_chd { h_data : dict json; h_wv : json; h_chirp : json }.
(** [kwargs.pop(k, None)]. *)
Definition popped (k : string) (kw : dict json) : json := match dget k kw with Some v => v | None => JNull end.
(** 134-146. *)
Definition new_chd (doc : option json) (kw : dict json) : res cerr (chd * list string) :=
  let wv := popped "wv_length_ku_chd" kw in
  let kw := dpop "wv_length_ku_chd" kw in
  let chirp := popped "chirp_slope_ku_chd" kw in
  let kw := dpop "chirp_slope_ku_chd" kw in
  match load chd_class doc kw with
  | Ok (d, w) => Ok (mk_chd d wv chirp, w)
  | Err e => Err e
  end.

Inductive derived := Pri | Bri | Chirp | Wave | T0.
Definition param (h : chd) (name : string) : res derr Q := number chd_class (h_data h) name.
Definition num_res (r : res derr Q) : res derr json := match r with Ok q => Ok (JNum q) | Err e => Err e end.
(** 108-132; [cst]: the data of the constants file. *)
Definition fresh_value (cst : dict json) (h : chd) (n : derived) : res derr json :=
  num_res
    match n with
    | Pri => bind (param h "prf_sar_chd") (fun f => over 1 f)
    | Bri => bind (param h "brf_sar_chd") (fun f => over 1 f)
    | Chirp => bind (param h "bw_ku_chd") (fun b => bind (param h "pulse_length_chd") (fun l => over b l))
    | Wave => bind (number cst_class cst "c_cst") (fun c => bind (param h "freq_ku_chd") (fun f => over c f))
    | T0 => bind (param h "uso_freq_nom_chd") (fun u => bind (param h "alt_freq_multiplier_chd") (fun m => over 1 (u * m)))
    end.
Definition read (cst : dict json) (h : chd) (n : derived) : chd * res derr json :=
  match n with
  | Chirp =>
      if is_null (h_chirp h) then
        match fresh_value cst h Chirp with
        | Ok v => (mk_chd (h_data h) (h_wv h) v, Ok v)
        | Err e => (h, Err e)
        end
      else (h, Ok (h_chirp h))
  | Wave =>
      if is_null (h_wv h) then
        match fresh_value cst h Wave with
        | Ok v => (mk_chd (h_data h) v (h_chirp h), Ok v)
        | Err e => (h, Err e)
        end
      else (h, Ok (h_wv h))
  | _ => (h, fresh_value cst h n)
  end.
Fixpoint reads (cst : dict json) (h : chd) (l : list derived) : chd * list (res derr json) :=
  match l with
  | [] => (h, [])
  | n :: r => let '(h1, a) := read cst h n in let '(h2, b) := reads cst h1 r in (h2, a :: b)
  end.

(** processor.py 40-104: [open] the files that can be read and parsed, [None]
    otherwise; [collect] the parameters of the algorithms (C43, C44), which may raise.
    An argument is a text, or [None].  The result: constants, characterisation,
    configuration and the threshold for gaps.  (Warnings are left out.) *)
Variable file : string -> option json.
Variable collect : dict json -> bool.
Record processor := mk_processor { pr_cst : dict json; pr_chd : chd; pr_cnf : dict json; pr_gap : Q }.
Definition given (a : option string) : bool := match a with Some (String _ _) => true | _ => false end.
Definition opened (a : option string) : res derr json :=
  match a with Some p => match file p with Some j => Ok j | None => Err DOpen end | None => Err DValue end.
Definition conf {A} (r : res cerr A) : res derr A := match r with Ok a => Ok a | Err e => Err (DConf e) end.
Definition new_processor (name cnf_file cst_file chd_file out_path : option string) : res derr processor :=
  if given name && given cnf_file && given cst_file && given chd_file && match out_path with Some _ => true | None => false end then
    bind (opened cst_file) (fun j =>
    bind (conf (load cst_class (Some j) [])) (fun cst =>
    bind (opened chd_file) (fun j =>
    bind (conf (new_chd (Some j) [])) (fun h =>
    bind (opened cnf_file) (fun j =>
    bind (conf (load cnf_class (Some j) [])) (fun cnf =>
    if collect (fst cnf) then
      match read (fst cst) (fst h) Bri with
      | (h1, Ok (JNum b)) => Ok (mk_processor (fst cst) h1 (fst cnf) (b * (3 # 2)))
      | (_, Ok _) => Err (DConf EParamType)
      | (_, Err e) => Err e
      end
    else Err DCollect))))))
  else Err DValue.
End Numbers.
