(** Vocabulary for C127: products of a run. *)
From Coq Require Import Ascii String List Bool.
From Verif Require Import Common Dict FsModel NameModel CliModel CliSpec IoSpec MadeModel.
Import ListNotations.
Open Scope string_scope.
Open Scope list_scope.

(** Where processing input [p] in job [j] puts its products. *)
Definition l1b_of (j : job) (p : path) : path := j_out j ++ [l1b_name (j_name j) (last p "")].
Definition l1bs_of (j : job) (p : path) : path := j_out j ++ [l1bs_name (j_name j) (last p "")].
Definition product (j : job) (p q : path) : Prop :=
  q = l1b_of j p \/ (j_skip j = false /\ q = l1bs_of j p).

(** [s] is what processing input [p] in job [j], with configuration and input
    as they are in [n], puts at [q]. *)
Definition content (chain : texts -> string -> string -> res err outcome) (n : node)
    (j : job) (p q : path) (s : string) : Prop :=
  exists h f c i o, file_at n (j_chd j) h /\ file_at n (j_cnf j) f /\ file_at n (j_cst j) c /\
  file_at n p i /\ chain (h, f, c) (last p "") i = Ok o /\
  ((q = l1b_of j p /\ s = o_l1b o) \/ (j_skip j = false /\ q = l1bs_of j p /\ s = o_l1bs o)).

(** Files the processing of the events reads. *)
Definition source (es : list event) (q : path) : Prop :=
  exists j, (q = j_chd j \/ q = j_cnf j \/ q = j_cst j \/ In (Processed j q) es) /\
            exists p, In (Processed j p) es.
(** No product is written over a file that is read. *)
Definition separate (es : list event) : Prop :=
  forall j p q, In (Processed j p) es -> product j p q -> ~ source es q.

(** [q] is last written by this pair. *)
Definition last_made (es : list event) (q : path) (j : job) (p : path) : Prop :=
  exists pre post, es = pre ++ Processed j p :: post /\ product j p q /\
    forall j' p', In (Processed j' p') post -> ~ product j' p' q.

(** The files of [n'] are those of [n] and the products of the events, each as
    made from the configuration and the input in [n]; of two products with the
    same path the later one stays. *)
Definition exactly (chain : texts -> string -> string -> res err outcome) (es : list event) (n n' : node) : Prop :=
  forall q s, file_at n' q s <->
    (exists j p, last_made es q j p /\ content chain n j p q s) \/
    ((forall j p, In (Processed j p) es -> ~ product j p q) /\ file_at n q s).

(** Names of configurations without a slash. *)
Definition flat (es : list event) : Prop := forall j p, In (Processed j p) es -> has_char slash (j_name j) = false.

(** A run on a workspace as the workspace manager lays it out: no output
    directory of its own, ordinary names, inputs in the inputs folder. *)
Definition home (W : path) (a : run_args) (w : string) (cs : list string) (ps : list path) : Prop :=
  given (ra_out a) = None /\ plain w = true /\ (forall c, In c cs -> plain c = true) /\
  forall p, In p ps -> exists x, plain x = true /\ p = W ++ [w; "inputs"; x].

(** What processing needs: the files, that the processor accepts them and
    that processing them raises nothing. *)
Definition opened (usable : texts -> option err) (n : node) (j : job) : Prop :=
  exists h f c, file_at n (j_chd j) h /\ file_at n (j_cnf j) f /\ file_at n (j_cst j) c /\ usable (h, f, c) = None.
Definition ready (usable : texts -> option err) (chain : texts -> string -> string -> res err outcome)
    (n : node) (j : job) (p : path) : Prop :=
  exists h f c i o, file_at n (j_chd j) h /\ file_at n (j_cnf j) f /\ file_at n (j_cst j) c /\ file_at n p i /\
  usable (h, f, c) = None /\ chain (h, f, c) (last p "") i = Ok o /\ o_err o = None.
(** Room for the products: the parent of the output directory exists, no file
    is in the place of the output directory, no directory in that of a product. *)
Definition room (n : node) (j : job) (p : path) : Prop :=
  exists b x, j_out j = b ++ [x] /\ is_dir b n = true /\ (forall s, ~ file_at n (j_out j) s) /\
  forall q, product j p q -> is_dir q n = false.
