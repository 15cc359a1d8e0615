(** * PropsNamingText: C84, the Python text that the conversion appends, written out *)
From Coq Require Import Ascii.
From Verif Require Import Base ListLemmas PostProcess Convert PropsConvert.
Open Scope string_scope.
Open Scope list_scope.
Open Scope Z_scope.

(** A file that does not have the comment line already gets, after what the conversion without
    the names would write, exactly these lines: a loop that gives to each appliance among the
    variables of the module the variable's name.  Their execution is the model of Naming.v. *)
Theorem C84_text text : text <> "" ->
  (forall l, In l (readlines text) -> l <> "# Code automatically added by ramp_convert_old_input_files.py
") ->
  exists body, convert false text = Ok body /\ convert true text = Ok (body ++ "
# Code automatically added by ramp_convert_old_input_files.py
from ramp.core.core import Appliance
local_var_names = [(i, a) for i, a in locals().items() if isinstance(a, Appliance)]
for i, a in local_var_names:
    a.name = i
")%string.
Proof.
  intros Hne Hm.
  assert (E : existsb (String.eqb marker) (readlines text) = false).
  { apply not_true_is_false. intros H. apply existsb_exists in H. destruct H as (l & Hl & Hq). apply String.eqb_eq in Hq. apply (Hm l Hl). rewrite <- Hq. reflexivity. }
  unfold convert. rewrite E. destruct (readlines text) as [|x xs] eqn:El; [apply readlines_nil in El; contradiction|].
  eexists. split; reflexivity.
Qed.

(** a file that has the line, whichever way it is converted, gets no further text *)
Theorem C84_text_once text keep : In "# Code automatically added by ramp_convert_old_input_files.py
" (readlines text) -> convert keep text = convert false text.
Proof.
  intros Hm. unfold convert. replace (existsb (String.eqb marker) (readlines text)) with true; [reflexivity|].
  symmetry. apply existsb_exists. eexists. split; [exact Hm|]. reflexivity.
Qed.

Example C84_text_case : let text := "from core import User
User_list = []
" in text <> "" /\
  (forall l, In l (readlines text) -> l <> "# Code automatically added by ramp_convert_old_input_files.py
") /\
  convert true text = Ok "from ramp.core.core import User
User_list = []

# Code automatically added by ramp_convert_old_input_files.py
from ramp.core.core import Appliance
local_var_names = [(i, a) for i, a in locals().items() if isinstance(a, Appliance)]
for i, a in local_var_names:
    a.name = i
".
Proof.
  split; [discriminate|]. split; [|reflexivity]. intros l Hl. cbn in Hl. destruct Hl as [<-|[<-|[]]]; discriminate.
Qed.
