(** * Convert: model of ramp/ramp_convert_old_input_files.py:31-102

    A file is its text.  Simplifications: the text has no carriage return; running the converted
    file (importlib) and saving its users (UseCase.save, Tabular.v) are not part of this model. *)
From Coq Require Import Ascii.
From Verif Require Import Base PostProcess.
Open Scope string_scope.
Open Scope list_scope.
Open Scope Z_scope.

Definition newline : ascii := "010"%char.
Definition nl : string := String newline EmptyString.

(** ** Python text primitives *)

(** [fp.readlines()]: every line with its newline, the last one possibly without *)
Fixpoint readlines (s : string) : list string :=
  match s with
  | EmptyString => []
  | String c s' =>
      if Ascii.eqb c newline then nl :: readlines s'
      else match readlines s' with
           | [] => [String c EmptyString]
           | l :: ls => String c l :: ls
           end
  end.
(** [fp.writelines(lines)] *)
Fixpoint join (ls : list string) : string :=
  match ls with [] => EmptyString | l :: ls' => (l ++ join ls')%string end.
(** [old in s] *)
Fixpoint contains (old s : string) : bool :=
  String.prefix old s || match s with EmptyString => false | String _ s' => contains old s' end.
(** [s.replace(old, new)] for a non empty [old]: from left to right; [skip] characters of an
    occurrence just replaced remain to be passed over *)
Fixpoint replace_from (old new : string) (skip : nat) (s : string) : string :=
  match s with
  | EmptyString => EmptyString
  | String c s' =>
      match skip with
      | S k => replace_from old new k s'
      | O => if String.prefix old s then (new ++ replace_from old new (pred (String.length old)) s')%string
             else String c (replace_from old new 0 s')
      end
  end.
Definition replace (old new s : string) : string := replace_from old new 0 s.

(** ** The conversion *)

Definition old_import : string := "from core import".
Definition new_import : string := "from ramp.core.core import".
Definition marker : string := ("# Code automatically added by ramp_convert_old_input_files.py" ++ nl)%string.
(** lines 31-37, the text [convert_names] *)
Definition convert_names : string :=
  (nl ++ marker ++
   "from ramp.core.core import Appliance" ++ nl ++
   "local_var_names = [(i, a) for i, a in locals().items() if isinstance(a, Appliance)]" ++ nl ++
   "for i, a in local_var_names:" ++ nl ++
   "    a.name = i" ++ nl)%string.

(** lines 64, 72-74: the last line with the old import, -1 if there is none *)
Fixpoint line_to_change (i : Z) (found : Z) (ls : list string) : Z :=
  match ls with
  | [] => found
  | l :: ls' => line_to_change (i + 1) (if contains old_import l then i else found) ls'
  end.

(** lines 64-88 [convert_old_user_input_file]: the text of the file after the call.
    [lines[line_to_change]] raises IndexError on an empty file. *)
Definition convert (keep_names : bool) (text : string) : res string :=
  let lines := readlines text in
  let keep_names := if existsb (String.eqb marker) lines then false else keep_names in
  let k := line_to_change 0 (-1) lines in
  match lines with
  | [] => Err IndexError
  | _ =>
      let text :=
        if k =? -1 then text
        else join (list_set lines (Z.to_nat k) (replace old_import new_import (nth (Z.to_nat k) lines EmptyString))) in
      Ok (if keep_names then (text ++ convert_names)%string else text)
  end.

(** lines 92-95 and core.py:541: the path of the xlsx file.  [os.path.dirname] is what precedes
    the last slash, without its trailing slashes unless it consists of them. *)
Fixpoint path_head (done acc s : string) : string :=
  match s with
  | EmptyString => done
  | String c s' =>
      let acc := (acc ++ String c EmptyString)%string in
      if Ascii.eqb c "/" then path_head acc acc s' else path_head done acc s'
  end.
Fixpoint strip_slashes (s : string) : string :=
  match s with
  | EmptyString => EmptyString
  | String c s' =>
      match strip_slashes s' with
      | EmptyString => if Ascii.eqb c "/" then EmptyString else String c EmptyString
      | t => String c t
      end
  end.
Definition dirname (s : string) : string :=
  let h := path_head EmptyString EmptyString s in
  match strip_slashes h with EmptyString => h | t => t end.
(** [os.path.join(a, b)] for a [b] without slash *)
Definition path_join (a b : string) : string :=
  match a with
  | EmptyString => b
  | _ => if ends_with a "/" then (a ++ b)%string else (a ++ "/" ++ b)%string
  end.
Definition converted_path (fname : string) (output_path : option string) (suffix : string) : string :=
  let folder := match output_path with Some p => p | None => dirname fname end in
  (path_join folder (replace ".py" suffix (path_tail EmptyString fname)) ++ ".xlsx")%string.

(** line 90: [fname_path.replace(".py", "").replace(os.path.sep, ".")], the separator being a slash *)
Definition module_name (fname : string) : string := replace "/" "." (replace ".py" "" fname).
(** line 98: [importlib.import_module(name)].  Ok: the file that is looked for in the directories of sys.path, each dot of the name standing for
    a slash.  A name that starts with a dot is a relative import, which raises TypeError without a package; the empty name raises
    ValueError.  Simplification: packages (__init__.py), modules already imported and other kinds of files are left out. *)
Definition import_module (name : string) : res string :=
  match name with
  | EmptyString => Err ValueError
  | String c _ => if Ascii.eqb c "." then Err TypeError else Ok (replace "." "/" name ++ ".py")%string
  end.
