(** Model of /repo/termfactory/latex_w_equations.py: the W operators as LaTeX. *)
From Verif Require Import PyBase PyStr ModelHelper.
Open Scope string_scope.

(** ** Counting *)

(** latex_w_equations.py 20-22 [remove_list_item] *)
Definition remove_list_item {A} (eqb : A -> A -> bool) (i : A) (lst : list A) : list A :=
  filter (fun item => negb (eqb item i)) lst.

(** [lis.count(x)] *)
Definition list_count {A} (eqb : A -> A -> bool) (x : A) (l : list A) : nat :=
  List.length (filter (fun y => eqb y x) l).

(** lines 25-31 [count_items]: a dictionary in insertion order.  The while
    loop removes at least one element each round, [List.length lis] rounds
    are enough. *)
Fixpoint count_items_fuel {A} (eqb : A -> A -> bool) (fuel : nat) (lis : list A) : list (A * nat) :=
  match fuel, lis with
  | _, [] => []
  | O, _ => []
  | S f, x :: _ => (x, list_count eqb x lis) :: count_items_fuel eqb f (remove_list_item eqb x lis)
  end.
Definition count_items {A} (eqb : A -> A -> bool) (lis : list A) : list (A * nat) :=
  count_items_fuel eqb (List.length lis) lis.

(** lines 34-51 [generate_w_prefactor]: the factorials in the denominator
    (an empty list is the empty string). *)
Definition generate_w_prefactor {A} (w_dict : list (A * nat)) : list nat :=
  filter (fun k => negb (Nat.eqb k 1)) (map snd w_dict).

Definition render_w_prefactor (l : list nat) : string :=
  match l with
  | [] => ""
  | _ => "\frac{1}{" ++ join "*" (map (fun k => str_nat k ++ "!") l) ++ "}"
  end.

(** lines 54-73 [generate_labels_on_w]; [sorted(key=sum)] is stable. *)
Definition label_sum_leb (a b : nat * nat) : bool := Nat.leb (fst a + snd a) (fst b + snd b).

Definition generate_labels_on_w (order : nat) (is_excited : bool) : list (nat * nat) :=
  isort label_sum_leb
    (flat_map (fun n => (n, 0) ::
                 (if Nat.eqb n 1 || negb is_excited then []
                  else map (fun i => (i, n - i)) (rev (range 1 n))))
              (range 1 (order + 1))).

(** ** Ground state *)

(** lines 76-133 [ground_state_w_equations_latex]: for each order the list of
    products, a product being the dictionary of its distinct parts. *)
Definition ground_state_terms (so : list (list nat) -> list (list nat)) (max_w_order : nat)
  : list (nat * list (list (nat * nat))) :=
  map (fun n => (n, map (count_items Nat.eqb) (rev (generate_partitions_of_n so n))))
      (range 1 (max_w_order + 1)).

Definition render_ground_factor (nk : nat * nat) : string :=
  let (n, k) := nk in
  if Nat.eqb k 1 then "\bt^{" ++ str_nat n ++ "}"
  else "(\bt^{" ++ str_nat n ++ "})^" ++ str_nat k.

Definition render_ground_product (d : list (nat * nat)) : string :=
  render_w_prefactor (generate_w_prefactor d) ++ concat_str (map render_ground_factor d).

Definition render_ground_state (l : list (nat * list (list (nat * nat)))) : string :=
  "\begin{align}" ++ nl ++ tab ++ "\bW^{0} &= 1"
  ++ concat_str (map (fun kt : nat * list (list (nat * nat)) =>
       let line := join " + " (map render_ground_product (snd kt)) in
       nl ++ "\\" ++ nl ++ tab ++ "\bW^{" ++ str_nat (fst kt) ++ "} &= "
       ++ (if Nat.ltb 1 (fst kt) then "\hat{S}(" ++ line ++ ")" else line)) l)
  ++ nl ++ "\end{align}" ++ nl.

Definition ground_state_w_equations_latex so max_w_order : string :=
  render_ground_state (ground_state_terms so max_w_order).

(** ** Excited states *)

Definition pair_eqb (a b : nat * nat) : bool := Nat.eqb (fst a) (fst b) && Nat.eqb (snd a) (snd b).
(** python's order on pairs *)
Definition pair_leb (a b : nat * nat) : bool :=
  Nat.ltb (fst a) (fst b) || (Nat.eqb (fst a) (fst b) && Nat.leb (snd a) (snd b)).
Definition pair_geb (a b : nat * nat) : bool := pair_leb b a.
Definition pairs_eqb := list_eqb pair_eqb.

(** [itertools.product(l, repeat=k)] *)
Definition product_repeat {A} (l : list A) (k : nat) : list (list A) := product (repeat l k).

(** lines 137-191 [generate_t_terms_group].  For W^0_0 the code returns a
    string ([inl]); otherwise a list of groups.  [so] is the iteration order
    of [matched_set]. *)
Definition single_t_list (omega_order : nat) : list (nat * nat) :=
  filter (fun mn => (Nat.eqb (snd mn) (fst mn) && negb (Nat.eqb (fst mn) 0))
                    || negb (Nat.eqb (snd mn) (fst mn)))
    (flat_map (fun m => map (fun n => (m, n)) (range 0 (omega_order + 1))) (range 0 (omega_order + 1))).

Definition upper_sum (l : list (nat * nat)) : nat := list_sum (map fst l).
Definition lower_sum (l : list (nat * nat)) : nat := list_sum (map snd l).

Definition matched_list (w : nat * nat) : list (list (nat * nat)) :=
  let omega_order := fst w + snd w in
  map (isort pair_geb)
    (filter (fun t => Nat.eqb (snd w) (lower_sum t) && Nat.eqb (fst w) (upper_sum t))
       (flat_map (fun length => product_repeat (single_t_list omega_order) length)
                 (range 1 (omega_order + 1)))).

Definition len_leb {A} (a b : list A) : bool := Nat.leb (List.length a) (List.length b).

Definition generate_t_terms_group (so : list (list (nat * nat)) -> list (list (nat * nat)))
    (w : nat * nat) : string + list (list (nat * nat)) :=
  if Nat.eqb (fst w + snd w) 0 then inl "i\left(\varepsilon\right)"
  else inr (isort len_leb (so (dedup pairs_eqb (matched_list w)))).

(** lines 194-243: per label (in the order of the labels) the products that
    are printed.  [W^1_0] is printed as a constant.  A label (0, 0) does not
    occur; the string case is python's [str.reverse], an AttributeError. *)
Inductive excited_line :=
| EOne                                                   (* \textbf{W}^1 = \bt^1 *)
| ESum (w : nat * nat) (products : list (list ((nat * nat) * nat))).

Definition excited_skip (sub : list (nat * nat)) : bool :=
  match sub with
  | [x] => negb (Nat.eqb (snd x) 0)
  | _ => false
  end.

Definition excited_line_of so (w : nat * nat) : res excited_line :=
  match generate_t_terms_group so w with
  | inl _ => Err TypeErr
  | inr g =>
      if Nat.eqb (fst w) 1 && Nat.eqb (snd w) 0 then Ok EOne
      else Ok (ESum w (map (count_items pair_eqb) (filter (fun sub => negb (excited_skip sub)) (rev g))))
  end.

Definition excited_state_terms so (max_w_order : nat) : res (list excited_line) :=
  mapM (excited_line_of so) (generate_labels_on_w max_w_order true).

Definition render_excited_factor (nk : (nat * nat) * nat) : string :=
  let (n, k) := nk in
  let body :=
    if Nat.eqb (fst n) 0 then "\bt_{" ++ str_nat (snd n) ++ "}"
    else if Nat.eqb (snd n) 0 then "\bt^{" ++ str_nat (fst n) ++ "}"
    else "\bt^{" ++ str_nat (fst n) ++ "}_{" ++ str_nat (snd n) ++ "}" in
  if Nat.eqb k 1 then body else "(" ++ body ++ ")^" ++ str_nat k.

Definition render_excited_product (d : list ((nat * nat) * nat)) : string :=
  render_w_prefactor (generate_w_prefactor d) ++ concat_str (map render_excited_factor d).

(** lines 208-243; [latex_code[:-3]] cuts the last " + " (were nothing
    printed it would cut three characters of the left hand side; the cut is
    applied to the line of this label). *)
Definition render_excited_line (e : excited_line) : string :=
  match e with
  | EOne => tab ++ "\textbf{W}^1 = \bt^1 \\" ++ nl ++ nl
  | ESum w ps =>
      sdrop_end 3
        ((if Nat.eqb (snd w) 0 then tab ++ "\textbf{W}^{" ++ str_nat (fst w) ++ "} = \hat{S}("
          else tab ++ "\textbf{W}^{" ++ str_nat (fst w) ++ "}_{" ++ str_nat (snd w) ++ "} = \hat{S}(")
         ++ concat_str (map (fun p => render_excited_product p ++ " + ") ps))
      ++ ")\\ " ++ nl ++ nl
  end.

Definition excited_state_w_equations_latex so (max_w_order : nat) : res string :=
  do ls <- excited_state_terms so max_w_order;
  Ok ("These are the W operators in full VECC.\\" ++ nl ++ "%"
      ++ nl ++ "The maximum rank of W operator is: " ++ str_nat max_w_order ++ "\\ " ++ nl ++ nl
      ++ "\begin{equation}" ++ nl ++ nl
      ++ tab ++ "\textbf{W}^0 = 1 \\" ++ nl ++ nl
      ++ concat_str (map render_excited_line ls)
      ++ "\end{equation}" ++ nl).
