(** Properties of the numbers that the generated modules of the W operators, the
    residuals, the time derivatives and the symmetriser compute together. *)
From Coq Require Import List Arith Bool Ascii String Lia Permutation QArith Qcanon.
From Verif Require Import PyBase SpecPartitions SpecW SpecDt SpecResidual SpecPython SpecEtText SpecSumText SpecWText SpecDtText SpecEinsum SpecWValue SpecDtValue SpecFullCCValue
  SpecResidualText SpecResidualValue SpecSymmetrize SpecSymmetrizeValue SpecSymmetricW ModelHelper ModelW ModelDt ModelResidual ModelSymmetrize
  ProofsMotion ProofsSymmetricW PropertiesModules PropertiesWText PropertiesDtText PropertiesResidualText PropertiesWValue PropertiesDtValue.
Import ListNotations.
Local Open Scope nat_scope.
Local Open Scope list_scope.

(** C121: if the amplitudes do not depend on the order of their modes, then what
    the generated symmetriser makes of the W operator of order k that the
    generated function sums up is the derivative of exp(T) with respect to the k
    modes: the sum over all ways to deal the k modes out to amplitudes, products
    of j amplitudes over j!. *)
Theorem C121_symmetric_w :
  forall so M text prog flag k (F : scalars) A N (env : string -> array F) Ms sprog, set_order so ->
    generate_w_operator_equations_file so M = Ok text -> python text prog ->
    level_truncation (trunc_of flag) -> k <= M -> amplitude_axes F A N env -> (forall r, 1 <= r <= k -> symmetric F r (env (amp_name r))) ->
    python (build_symmetrizing_function Ms) sprog -> 2 <= k <= Ms ->
    exists l body, w_adds prog flag k false (fun _ => []) l /\ Forall (fun dp => product_accepted F env (snd dp)) l /\
      sprog = [Block symmetrize_head body] /\
      forall order_flag, order_is order_flag k ->
        exists doc axes, String.prefix "'''" doc = true /\
          exec order_flag body = [doc; "X = np.zeros_like(tensor, dtype=complex)"%string] ++ map add_transposed axes ++ ["return X"%string] /\
          forall x, has_axes F A N k x ->
            (forall a b js, b < A -> List.length js = k -> entry x (a :: b :: js) = SpecWValue.added F env l (a :: b :: js)) ->
            Forall (fun ax => transpose_accepts F ax x /\ shape (transposed F ax x) = shape x) axes /\
            forall a b is, b < A -> List.length is = k -> sum_transposed F axes x (a :: b :: is) = w_symmetric F A env flag k is a b.
Proof. exact w_symmetrized. Qed.
Print Assumptions C121_symmetric_w.

(** The same for every order from one, without the text of the symmetriser. *)
Theorem C121_symmetric_w_orders :
  forall so M text prog flag k (F : scalars) A N (env : string -> array F), set_order so ->
    generate_w_operator_equations_file so M = Ok text -> python text prog ->
    level_truncation (trunc_of flag) -> 1 <= k <= M -> amplitude_axes F A N env -> (forall r, 1 <= r <= k -> symmetric F r (env (amp_name r))) ->
    exists l, w_adds prog flag k false (fun _ => []) l /\ Forall (fun dp => product_accepted F env (snd dp)) l /\
      forall a b is, b < A -> List.length is = k ->
        ksum F (map (fun js => SpecWValue.added F env l (a :: b :: js)) (orders_of is)) = w_symmetric F A env flag k is a b.
Proof. exact w_file_symmetric. Qed.
Print Assumptions C121_symmetric_w_orders.

(** The same for the functions that use prepared expressions. *)
Theorem C121_symmetric_w_optimized :
  forall so M text prog flag (F : scalars) A N (env : string -> array F), set_order so ->
    generate_w_operator_equations_file so M = Ok text -> python text prog ->
    level_truncation (trunc_of flag) -> negations flag -> amplitude_axes F A N env ->
    exists vx vc, returns_paths prog flag "vemx" vx /\ returns_paths prog flag "vecc" vc /\
      forall k, 1 <= k <= M -> (forall r, 1 <= r <= k -> symmetric F r (env (amp_name r))) ->
        exists px pc l, nth_error vx (k - 1) = Some px /\ nth_error vc (k - 1) = Some pc /\
          w_adds prog flag k true (choose px pc) l /\ Forall (fun dp => product_accepted F env (snd dp)) l /\
          forall a b is, b < A -> List.length is = k ->
            ksum F (map (fun js => SpecWValue.added F env l (a :: b :: js)) (orders_of is)) = w_symmetric F A env flag k is a b.
Proof. exact w_file_symmetric_optimized. Qed.
Print Assumptions C121_symmetric_w_optimized.

(** C122: summed over the orders of the modes, what the residual function of order
    p adds is the Hamiltonian acting on the W operators: h^m_n creates m of the
    modes and annihilates n modes of W, over n!. *)
Theorem C122_residual_acts :
  forall M r text prog flag p (F : scalars) A N (env : string -> array F),
    generate_residual_equations_file M r = Ok text -> python (joined text) prog -> p <= M -> p <= 4 -> residual_axes F A N env flag ->
    symmetric_hamiltonian F env -> (forall k, 1 <= k <= 6 -> w_available (given flag) k = true -> symmetric F k (env (w_name k))) ->
    exists ts vs, residual_runs prog flag p ts /\ Forall2 (statement_adds F A N env p) ts vs /\
      forall a b is, b < A -> List.length is = p ->
        ksum F (map (fun js => ksum F (map (fun v => v (a :: b :: js)) vs)) (orders_of is)) = hamiltonian_acts F A N env (really_adds flag r p) is a b.
Proof. exact residual_symmetrized. Qed.
Print Assumptions C122_residual_acts.

(** C123: the derivative of the amplitude of order k is what the functions
    compute (residual less what is subtracted, summed over the orders of the
    modes) exactly when the W operator of order k moves by
    dW/dt = H W - W epsilon. *)
Theorem C123_equation_of_motion :
  forall (F : scalars) so M text prog Mr r rtext rprog flag k A N (env : string -> array F), set_order so ->
    generate_dt_amplitude_equations_file so M = Ok text -> python text prog ->
    generate_residual_equations_file Mr r = Ok rtext -> python (joined rtext) rprog ->
    1 <= k <= M -> k <= Mr -> k <= 4 ->
    dt_axes F A N env -> residual_axes F A N env flag ->
    (forall j, 1 <= j <= k -> has_rank (trunc_of flag) j) ->
    dt_kind flag = (if flag "ansatz.VE_MIXED"%string then Kind_mixed else if flag "ansatz.VECC"%string then Kind_CC else Kind_CI) ->
    (forall j, 1 <= j <= k -> symmetric F j (env (amp_name j)) /\ symmetric F j (env (dt_amp_name j))) ->
    (forall j, 1 <= j <= 6 -> (w_available (given flag) j = true \/ j = k) -> symmetric F j (env (w_name j))) ->
    symmetric_hamiltonian F env ->
    exists ts vs l,
      residual_runs rprog flag k ts /\ Forall2 (statement_adds F A N env k) ts vs /\
      dt_computes prog flag k false "" (fun _ => []) l /\ Forall (fun dp => product_fits F A N env k (snd dp)) l /\
      forall a b is, b < A -> List.length is = k ->
        (entry (env (dt_amp_name k)) (a :: b :: is) =
         ksum F (map (fun js => ksub F (ksum F (map (fun v => v (a :: b :: js)) vs)) (SpecWValue.added F env l (a :: b :: js))) (orders_of is)) <->
         snd (w_symmetric (in_time F) A (env_in_time F env) flag k is a b : with_derivative F) =
         ksub F (hamiltonian_acts F A N env (really_adds flag r k) is a b)
                (mmul F A (at_modes F (env (w_name k)) is) (at_modes F (env "epsilon"%string) []) a b)).
Proof. exact equation_of_motion. Qed.
Print Assumptions C123_equation_of_motion.

(** The same for the functions that use prepared expressions, with the expressions
    that the module itself prepares. *)
Theorem C123_equation_of_motion_optimized :
  forall (F : scalars) so M text prog Mr r rtext rprog flag A N (env : string -> array F), set_order so ->
    generate_dt_amplitude_equations_file so M = Ok text -> python text prog ->
    generate_residual_equations_file Mr r = Ok rtext -> python (joined rtext) rprog ->
    level_truncation (trunc_of flag) -> negations flag -> dt_axes F A N env -> residual_axes F A N env flag -> symmetric_hamiltonian F env ->
    exists ep lp up, returns_epsilon_paths prog flag ep /\ returns_dt_paths prog flag false lp /\ returns_dt_paths prog flag true up /\
      forall k, 1 <= k <= M -> k <= Mr -> k <= 4 ->
        (forall j, 1 <= j <= k -> has_rank (trunc_of flag) j) ->
        dt_kind flag = (if flag "ansatz.VE_MIXED"%string then Kind_mixed else if flag "ansatz.VECC"%string then Kind_CC else Kind_CI) ->
        (forall j, 1 <= j <= k -> symmetric F j (env (amp_name j)) /\ symmetric F j (env (dt_amp_name j))) ->
        (forall j, 1 <= j <= 6 -> (w_available (given flag) j = true \/ j = k) -> symmetric F j (env (w_name j))) ->
        exists e pl pu ts vs l, nth_error ep (k - 1) = Some e /\ nth_error lp (k - 1) = Some pl /\ nth_error up (k - 1) = Some pu /\
          residual_runs rprog flag k ts /\ Forall2 (statement_adds F A N env k) ts vs /\
          dt_computes prog flag k true e (fun un => if un then pu else pl) l /\ Forall (fun dp => product_fits F A N env k (snd dp)) l /\
          forall a b is, b < A -> List.length is = k ->
            (entry (env (dt_amp_name k)) (a :: b :: is) =
             ksum F (map (fun js => ksub F (ksum F (map (fun v => v (a :: b :: js)) vs)) (SpecWValue.added F env l (a :: b :: js))) (orders_of is)) <->
             snd (w_symmetric (in_time F) A (env_in_time F env) flag k is a b : with_derivative F) =
             ksub F (hamiltonian_acts F A N env (really_adds flag r k) is a b)
                    (mmul F A (at_modes F (env (w_name k)) is) (at_modes F (env "epsilon"%string) []) a b)).
Proof. exact equation_of_motion_optimized. Qed.
Print Assumptions C123_equation_of_motion_optimized.

(** Two states and two modes; the amplitudes t_0 and t_1 do not commute.  W of
    order two at the states (0, 0) and the modes (0, 1) is
    t_01 + 1/2 (t_0 t_1 + t_1 t_0) = 2 + (12 + 14) / 2. *)
Definition even_amplitudes (name : string) : array rationals :=
  mkarray (F := rationals) (2 :: 2 :: repeat 2 (String.length name - 2))
    (fun idx => of_nat rationals (match idx with a :: b :: is => 3 * a + b + 1 + list_sum is | _ => 0 end)).
Lemma even_symmetric n s : symmetric rationals n (even_amplitudes s).
Proof.
  intros a b is js _ P. assert (E : list_sum js = list_sum is) by (clear -P; unfold list_sum; induction P; cbn [fold_right] in *; lia). cbn [entry even_amplitudes]. now rewrite E.
Qed.
Example C121_example :
  (exists text prog, generate_w_operator_equations_file as_given 4 = Ok text /\ python text prog) /\
  level_truncation (trunc_of ccsd_flags) /\ negations ccsd_flags /\ amplitude_axes rationals 2 2 even_amplitudes /\
  (forall r, 1 <= r <= 2 -> symmetric rationals r (even_amplitudes (amp_name r))) /\
  (exists prog, python (build_symmetrizing_function 5) prog) /\ order_is order_two 2 /\
  w_symmetric rationals 2 even_amplitudes ccsd_flags 2 [0; 1] 0 0 = of_nat rationals 15 /\
  w_symmetric rationals 2 even_amplitudes (fun s => (ccsd_flags s && negb (String.eqb s "ansatz.VECC"))%bool) 2 [0; 1] 0 0 = of_nat rationals 2.
Proof.
  split; [exact (proj1 C73_example)|]. split; [apply ccsd_level|]. split; [intros c; reflexivity|]. split; [|split; [intros; apply even_symmetric|split; [apply C88_example|split; [apply C88_example|]]]].
  - intros r H. do 7 (destruct r as [|r]; [try lia; reflexivity|]). lia.
  - split; vm_compute; reflexivity.
Qed.

(** Two states and two modes, all entries one but those of the derivatives, and a
    linear Hamiltonian.  The operators act on W of order two with
    h W_2 + h^1 W_1 (both modes) + h_1 W_3 = 2 + 4 + 4, and W epsilon is 2; with
    dt_i = 5 and dt_ij = -12 the derivative of W is
    dt_ij + 1/2 (dt_i t_j + t_i dt_j + dt_j t_i + t_j dt_i) = -12 + 20. *)
Definition motion (s : string) : bool := (ccsd s || negb (String.prefix "ansatz" s || String.prefix "trunc" s))%bool.
Definition motion_flags (s : string) : bool :=
  match s with
  | String "n" (String "o" (String "t" (String " " r))) => negb (motion r)
  | _ => motion s
  end.
Definition moving_together (s : string) : array rationals :=
  let drop := if String.eqb s "epsilon" then 7 else if String.prefix "d" s then 3 else if String.prefix "h" s then 4 else 2 in
  mkarray (F := rationals) (2 :: 2 :: repeat 2 (String.length s - drop))
    (fun _ => if String.prefix "d" s then (if Nat.eqb (String.length s) 4 then of_nat rationals 5 else Q2Qc (-12)) else kone rationals).
Lemma together_symmetric n s : symmetric rationals n (moving_together s).
Proof. intros a b is js _ _. reflexivity. Qed.
Example C123_example :
  (exists text prog, generate_dt_amplitude_equations_file as_given 4 = Ok text /\ python text prog) /\
  (exists text prog, generate_residual_equations_file 6 2 = Ok text /\ python (joined text) prog) /\
  dt_axes rationals 2 2 moving_together /\ residual_axes rationals 2 2 moving_together motion_flags /\
  level_truncation (trunc_of motion_flags) /\ negations motion_flags /\ (forall j, 1 <= j <= 2 -> has_rank (trunc_of motion_flags) j) /\
  dt_kind motion_flags = (if motion_flags "ansatz.VE_MIXED"%string then Kind_mixed else if motion_flags "ansatz.VECC"%string then Kind_CC else Kind_CI) /\
  (forall j s, symmetric rationals j (moving_together s)) /\
  snd (w_symmetric (in_time rationals) 2 (env_in_time rationals moving_together) motion_flags 2 [0; 1] 0 1 : with_derivative rationals) = of_nat rationals 8 /\
  hamiltonian_acts rationals 2 2 moving_together (really_adds motion_flags 1 2) [0; 1] 0 1 = of_nat rationals 10 /\
  mmul rationals 2 (at_modes rationals (moving_together (w_name 2)) [0; 1]) (at_modes rationals (moving_together "epsilon") []) 0 1 = of_nat rationals 2.
Proof.
  split; [exact (proj1 C77_example)|]. split; [apply C82_example|]. split; [|split; [|split; [|split; [intros c; reflexivity|split; [|split; [reflexivity|split; [intros; apply together_symmetric|]]]]]]].
  - split; [|reflexivity]. intros r L. do 7 (destruct r as [|r]; [try lia; repeat split|]). lia.
  - split.
    + intros m n L. destruct m as [|[|[|m]]]; destruct n as [|[|[|n]]]; try lia; reflexivity.
    + intros k L _. do 7 (destruct k as [|k]; [try lia; reflexivity|]). lia.
  - split; [reflexivity|]. intros r H1 H2 H. destruct r as [|[|[|[|[|[|r]]]]]]; try lia; try reflexivity; discriminate H.
  - intros r L. do 3 (destruct r as [|r]; [try lia; reflexivity|]). lia.
  - split; [|split]; vm_compute; reflexivity.
Qed.
