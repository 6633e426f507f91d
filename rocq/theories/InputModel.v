(** Model of config/input.py: replacing column references by data columns.

    Configuration values as read by yaml.safe_load: scalars, lists, mappings.
    Simplifications: mapping keys are strings; dates and other YAML scalars
    are left out.  A mapping is the list of its items in order (keys are
    distinct in Python; nothing below depends on it). *)
From Coq Require Import String List.
From Verif Require Import Base.
Open Scope R_scope.

(** A data table: its columns by name, in order. *)
Definition table : Type := list (string * list R).

Inductive value : Type :=
  | VNull
  | VBool (b : bool)
  | VNum (x : R)
  | VStr (s : string)
  | VArray (column : list R)      (* a NumPy array *)
  | VFrame (t : table)            (* the data frame itself *)
  | VList (l : list value)
  | VDict (items : list (string * value)).

Fixpoint find_column (t : table) (name : string) : option (list R) :=
  match t with
  | [] => None
  | (n, c) :: t' => if String.eqb n name then Some c else find_column t' name
  end.

(** input.py:37-42, [dataframe[name].to_numpy()] and its exception handler.
    Columns of a CSV file have string labels, any other scalar is a KeyError.
    Unhashable names are a TypeError, which is not caught.  A list of names
    would select several columns; that is not modelled ([OtherError]). *)
Definition insert_column (t : table) (name : value) : res value :=
  match name with
  | VStr s =>
      match find_column t s with
      | Some c => Ok (VArray c)
      | None => Err ColumnInsertionError
      end
  | VNull | VBool _ | VNum _ => Err ColumnInsertionError
  | VList _ => Err OtherError
  | VDict _ | VArray _ | VFrame _ => Err TypeError
  end.

(** input.py:23-46 *)
Fixpoint insert_from_dataframe (t : table) (config : value) : res value :=
  match config with
  | VList l =>
      let* l' :=
        (fix elements (l : list value) : res (list value) :=
           match l with
           | [] => Ok []
           | e :: l' =>
               let* e' := insert_from_dataframe t e in
               let* r := elements l' in
               Ok (e' :: r)
           end) l in
      Ok (VList l')
  | VDict items =>
      let copy_items :=
        (fix copy (items : list (string * value)) : res (list (string * value)) :=
           match items with
           | [] => Ok []
           | (k, v) :: items' =>
               let* v' := insert_from_dataframe t v in
               let* r := copy items' in
               Ok ((k, v') :: r)
           end) in
      match items with
      | [(k, name)] =>
          if String.eqb k "column" then insert_column t name
          else let* r := copy_items items in Ok (VDict r)
      | _ => let* r := copy_items items in Ok (VDict r)
      end
  | _ => Ok config
  end.

(** input.py:65-78 *)
Fixpoint check_no_column_reference (values : value) : res unit :=
  match values with
  | VList l =>
      (fix elements (l : list value) : res unit :=
         match l with
         | [] => Ok tt
         | v :: l' => let* _ := check_no_column_reference v in elements l'
         end) l
  | VDict items =>
      let all_values :=
        (fix each (items : list (string * value)) : res unit :=
           match items with
           | [] => Ok tt
           | (_, v) :: items' => let* _ := check_no_column_reference v in each items'
           end) in
      match items with
      | [(k, name)] =>
          if String.eqb k "column" then Err ColumnInsertionError else all_values items
      | _ => all_values items
      end
  | _ => Ok tt
  end.

(** [config["data"] = x] on a Python dict. *)
Fixpoint set_key (k : string) (v : value) (items : list (string * value)) : list (string * value) :=
  match items with
  | [] => [(k, v)]
  | (k', v') :: items' =>
      if String.eqb k' k then (k, v) :: items' else (k', v') :: set_key k v items'
  end.

(** __main__.py:126-127 and input.py:57-63: the configuration handed to the
    sections.  ColumnInsertionError is an IndexError, which pydantic does not
    turn into a ValidationError. *)
Definition insert_dataframe (items : list (string * value)) (data : option table) : res value :=
  match data with
  | Some t => insert_from_dataframe t (VDict (set_key "data" (VFrame t) items))
  | None =>
      let values := VDict (set_key "data" VNull items) in
      let* _ := check_no_column_reference values in
      Ok values
  end.
