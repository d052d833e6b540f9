(** Vocabulary for C43-C45, independent of resolution order and collection. *)
From Coq Require Import String List Bool Arith.
From Verif Require Import Common Dict ParamModel.
Import ListNotations.

Section Params.
Context {V : Type}.
Implicit Types c b : pycls V.

(** Single inheritance; the class and its ancestors are different classes. *)
Fixpoint single c : Prop :=
  match c with
  | Cls _ _ [] => True
  | Cls _ _ [b] => single b
  | Cls _ _ (_ :: _ :: _) => False
  end.
Fixpoint chain c : list (pycls V) :=
  c :: match c with
       | Cls _ _ (b :: _) => chain b
       | Cls _ _ [] => []
       end.
Definition hierarchy c : Prop := single c /\ NoDup (map c_id (chain c)).

(** The declaration in force within one class: the topmost decorator. *)
Fixpoint topmost (l : list (decl V)) (name : string) : option (decl V) :=
  match l with
  | [] => None
  | p :: r => match topmost r name with
              | Some q => Some q
              | None => if (d_name p =? name)%string then Some p else None
              end
  end.

(** The declaration of the class itself, else the one of the nearest base. *)
Fixpoint nearest c (name : string) : option (decl V) :=
  match topmost (c_decls c) name with
  | Some p => Some p
  | None => match c with
            | Cls _ _ (b :: _) => nearest b name
            | Cls _ _ [] => None
            end
  end.

(** [name] is declared for [c] or, directly or indirectly, one of its bases. *)
Inductive declared : pycls V -> string -> Prop :=
| Here : forall i l bs p, In p l -> declared (Cls i l bs) (d_name p)
| Base : forall i l bs b name, In b bs -> declared b name -> declared (Cls i l bs) name.

(** The class exists: Python found a resolution order. *)
Definition creatable c : Prop := mro c <> None.
End Params.

(** * Tool configuration: what the files say at a given time *)
Section Tool.
Context {V : Type}.
Definition said (p : @path V) (name : string) : option V :=
  match p with File (Loads d) => dget name d | _ => None end.
(** The user file in force: the one found, else the one just created. *)
Definition user_now (fs : @fsys V) : path :=
  match user_file fs with Nothing => w_after fs | p => p end.
Definition configured (fs : @fsys V) (name : string) (default : V) : V :=
  match said (local_file fs) name with
  | Some v => v
  | None => match said (user_now fs) name with Some v => v | None => default end
  end.
Definition exits (p : @path V) : bool := match p with File Exits => true | _ => false end.
Definition dict_file (p : @path V) : Prop :=
  match p with File (Loads d) => is_dict d | _ => True end.
(** The first query with a proper name. *)
Definition first_files (l : list (@fsys V * string * V)) : option fsys :=
  option_map (fun q => fst (fst q)) (find (fun q => negb (snd (fst q) =? "")%string) l).
End Tool.
