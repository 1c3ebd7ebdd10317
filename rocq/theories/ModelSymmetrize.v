(** Model of /repo/termfactory/helper_funcs.py [build_symmetrizing_function]:
    the text of the function the generated modules import. *)
From Verif Require Import PyBase PyStr ModelHelper.
Local Open Scope string_scope.

(** python's text of a tuple of two or more integers *)
Definition tuple_text (l : list nat) : string := "(" ++ join ", " (map str_nat l) ++ ")".

(** helper_funcs.py 36-39: the loop body for the order [n] *)
Definition symmetrize_order (n : nat) : string :=
  tab ++ "if order == " ++ str_nat n ++ ":" ++ nl
  ++ concat_str (map (fun ax => tab ++ tab ++ "X += np.transpose(tensor, " ++ tuple_text ax ++ ")" ++ nl) (symmetrizing_axes n)).

(** helper_funcs.py 18-42 [build_symmetrizing_function] ([show_perm] is not
    used there) *)
Definition build_symmetrizing_function (max_order : nat) : string :=
  (nl ++ "def symmetrize_tensor(tensor, order):" ++ nl
   ++ tab ++ "'''Symmetrizing a tensor (the W operator or the residual) by tracing over all permutations.'''" ++ nl
   ++ tab ++ "X = np.zeros_like(tensor, dtype=complex)" ++ nl)
  ++ (tab ++ "if order == 0:" ++ nl ++ tab ++ tab ++ "return tensor" ++ nl
      ++ tab ++ "if order == 1:" ++ nl ++ tab ++ tab ++ "return tensor" ++ nl)
  ++ concat_str (map symmetrize_order (range 2 (max_order + 1)))
  ++ tab ++ "return X" ++ nl.
