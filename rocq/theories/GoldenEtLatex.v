(** The model's text against the repository's recorded outputs
    (/repo/tests/deep/files/test_latex_eT_zhz, inputs in test_latex_eT_zhz.py
    and large_test_data.py 748-820).  Tests of the model's faithfulness, not
    proofs of properties. *)
From Verif Require Import PyBase ModelHelper ModelW ModelFullCC ModelFullCCPy ModelFullCCLatex ModelZhz ModelEt ModelEtLatex GoldenW.

(* the part after the header of /repo/tests/deep/files/test_latex_eT_zhz/eT_generated_latex.tex *)
Definition golden_file_RHS : string :=
"\vspace{2cm}%
%
%
%
%

\begin{equation}
    \hat{\Omega} = 1
\qquad\qquad
    i\dv{\hat{\bt}^{}_{\gamma}}{\tau} = \hat{G}^{}_{\gamma\gamma}
\end{equation}

%
%
%
%
%

\begin{align}\begin{split}
LHS &=
    i\Big(\dv{\hat{\bz}^{}_{\gamma}}{\tau}\Big)
\\ RHS &=
%
%
\bh_{0,xb}(1-\delta_{x\gamma})\\&+\sum\Big((\mathds{1}\bh_0\bz_0 + \bar{f}\mathds{1}\bh_{\blue{k}\red{}}\bz^{\blue{k}\red{}} + \bar{f}\bt_{\magenta{}\blue{}\magenta{k}\red{}}\bh_0\bz^{\magenta{k}\red{}} + \bar{f}\bt_{\magenta{}\blue{k}\magenta{}\red{}}\bh^{\blue{k}\blue{}\red{}}\bz_0)\Big)\\&-i\sum\Big(\dv{\hat{\bt}_{0, \gamma}}{\tau}\,\hat{\bz}_{0, \gamma}\Big)
\end{split}\end{align}

\paragraph{Linear Equations}

%
%
%
%
%

\begin{equation}
    \hat{\Omega} = \down{i}
\qquad\qquad
    i\dv{\hat{\bt}^{i}_{\gamma}}{\tau} = \hat{G}^{i}_{\gamma\gamma}
\end{equation}

%
%
%
%
%

\begin{align}\begin{split}
LHS &=
    i\Big(\dv{\hat{\bz}^{i}_{\gamma}}{\tau}\Big)
\\ RHS &=
%
%
\bh^{i}(1-\delta_{x\gamma})\\&+\sum\Big((\mathds{1}\bh_0\bz^{\red{y}} + \mathds{1}\bh^{\blue{}\red{y}}\bz_0 + \bar{f}\bt_{\magenta{}\blue{}\magenta{k}\red{}}\bh^{\blue{}\blue{}\red{y}}\bz^{\magenta{k}\red{}} + \bar{f}\bt_{\magenta{}\blue{k}\magenta{}\red{}}\bh^{\blue{k}\blue{}\red{}}\bz^{\magenta{}\red{y}})\Big)\\&-i\sum\Big(\dv{\hat{\bt}^{i}_{\gamma}}{\tau}\,\hat{\bz}_{0, \gamma} + \dv{\hat{\bt}_{0, \gamma}}{\tau}\,\hat{\bz}^{i}_{\gamma}\Big)
\end{split}\end{align}

\end{document}"%string.

Example golden_file_RHS_matches :
  same_text (generate_eT_z_t_symmetric_latex RHS true false 1 1 1 1 1) golden_file_RHS = true.
Proof. vm_compute. reflexivity. Qed.

(* the part after the header of /repo/tests/deep/files/test_latex_eT_zhz/latex_Test_run_main_et_zhz_LHS.tex *)
Definition golden_file_LHS : string :=
"\vspace{2cm}%
%
%
%
%

\begin{equation}
    \hat{\Omega} = 1
\qquad\qquad
    i\dv{\hat{\bt}^{}_{\gamma}}{\tau} = \hat{G}^{}_{\gamma\gamma}
\end{equation}

%
%
%
%
%

\begin{align}\begin{split}
LHS &=
%
%
\\&+\sum\Big((\mathds{1}\mathds1\left(i\dv{\bz_0}{\tau}\right) + \bar{f}\bs_{\magenta{}\blue{}\magenta{k}\red{}}\mathds1\left(i\dv{\bz^{\magenta{k}\red{}}}{\tau}\right) + \bar{f}\bs_{\magenta{}\blue{k}\magenta{}\red{}}\left(i\dv{\bt^{\blue{k}\blue{}\red{}}}{\tau}\right)\bz_0)\Big)
\end{split}\end{align}

\paragraph{Linear Equations}

%
%
%
%
%

\begin{equation}
    \hat{\Omega} = \down{i}
\qquad\qquad
    i\dv{\hat{\bt}^{i}_{\gamma}}{\tau} = \hat{G}^{i}_{\gamma\gamma}
\end{equation}

%
%
%
%
%

\begin{align}\begin{split}
LHS &=
%
%
\\&+\sum\Big((\mathds{1}\mathds1\left(i\dv{\bz^{\red{y}}}{\tau}\right) + \mathds{1}\left(i\dv{\bt^{\blue{}\red{y}}}{\tau}\right)\bz_0 + \bar{f}\bs_{\magenta{}\blue{}\magenta{k}\red{}}\left(i\dv{\bt^{\blue{}\blue{}\red{y}}}{\tau}\right)\bz^{\magenta{k}\red{}} + \bar{f}\bs_{\magenta{}\blue{k}\magenta{}\red{}}\left(i\dv{\bt^{\blue{k}\blue{}\red{}}}{\tau}\right)\bz^{\magenta{}\red{y}})\Big)
\end{split}\end{align}

\end{document}"%string.

Example golden_file_LHS_matches :
  same_text (generate_eT_z_t_symmetric_latex LHS true false 1 1 1 1 1) golden_file_LHS = true.
Proof. vm_compute. reflexivity. Qed.

(* large_test_data.py 748-820 *)
Definition long_line_terms : list etterm :=
  [mketterm (mkel 1 0 1 [0] [0] 0 0 0 1) [(mket 0 0 0 0 0 0 0 0 0 0 0)] (mkeh 0 0 0 0 0 [0] [0] 0 0) (mkez 1 1 0 1 0 [0] [0] 0 0 0 0) 1;
   mketterm (mkel 1 0 1 [0] [0] 0 0 0 1) [(mket 0 0 0 0 0 0 0 0 0 0 0)] (mkeh 1 0 1 0 0 [0] [0] 0 1) (mkez 2 2 0 1 0 [0] [0] 1 0 0 0) 1;
   mketterm (mkel 1 0 1 [0] [0] 0 1 0 0) [(mket 0 0 0 0 0 0 0 0 0 0 0)] (mkeh 1 1 0 1 0 [0] [0] 0 0) (mkez 0 0 0 0 0 [0] [0] 0 0 0 0) 1;
   mketterm (mkel 1 0 1 [0] [0] 0 1 0 0) [(mket 0 0 0 0 0 0 0 0 0 0 0)] (mkeh 2 1 1 1 0 [0] [0] 0 1) (mkez 1 1 0 0 0 [0] [0] 1 0 0 0) 1;
   mketterm (mkel 1 0 1 [0] [0] 0 0 0 1) [(mket 1 0 1 0 0 0 0 0 0 0 1)] (mkeh 0 0 0 0 0 [0] [0] 0 0) (mkez 2 2 0 1 0 [1] [0] 0 0 0 0) 1;
   mketterm (mkel 1 0 1 [0] [0] 0 1 0 0) [(mket 1 0 1 0 0 0 0 0 0 0 1)] (mkeh 1 1 0 1 0 [0] [0] 0 0) (mkez 1 1 0 0 0 [1] [0] 0 0 0 0) 1;
   mketterm (mkel 1 0 1 [0] [0] 0 0 0 1) [(mket 1 0 1 0 0 0 0 0 1 0 0)] (mkeh 1 1 0 0 0 [1] [0] 0 0) (mkez 1 1 0 1 0 [0] [0] 0 0 0 0) 1;
   mketterm (mkel 1 0 1 [0] [0] 0 1 0 0) [(mket 1 0 1 0 0 0 0 0 0 0 1)] (mkeh 2 1 1 1 0 [0] [0] 0 1) (mkez 2 2 0 0 0 [1] [0] 1 0 0 0) 1;
   mketterm (mkel 1 0 1 [0] [0] 0 0 0 1) [(mket 1 0 1 0 0 0 0 0 1 0 0)] (mkeh 2 1 1 0 0 [1] [0] 0 1) (mkez 2 2 0 1 0 [0] [0] 1 0 0 0) 1;
   mketterm (mkel 1 0 1 [0] [0] 0 1 0 0) [(mket 1 0 1 0 0 0 0 0 1 0 0)] (mkeh 2 2 0 1 0 [1] [0] 0 0) (mkez 0 0 0 0 0 [0] [0] 0 0 0 0) 1].

(* /repo/tests/deep/files/test_latex_eT_zhz/_prepare_third_eTz_latex_test_long_line_splitting_out.txt *)
Definition golden_long : string :=
"
\mathds{1}\bh_0\bz^{\red{y}}_{} + \bar{f}\frac{(2)}{2!}\mathds{1}\bh^{}_{\blue{k}\red{}}\bz^{\blue{k}\red{y}}_{} + \mathds{1}\bh^{\blue{}\red{y}}_{}\bz_0 + \bar{f}\mathds{1}\bh^{\blue{}\red{y}}_{\blue{k}\red{}}\bz^{\blue{k}\red{}}_{} + \bar{f}\frac{(2)}{2!}\bt^{}_{\magenta{}\blue{}\magenta{k}\red{}}\bh_0\bz^{\magenta{k}\red{y}}_{}
    \\  &+  % split long equation
\bar{f}\bt^{}_{\magenta{}\blue{}\magenta{k}\red{}}\bh^{\blue{}\blue{}\red{y}}_{}\bz^{\magenta{k}\red{}}_{} + \bar{f}\bt^{}_{\magenta{}\blue{k}\magenta{}\red{}}\bh^{\blue{k}\blue{}\red{}}_{}\bz^{\magenta{}\red{y}}_{} + \bar{f}^{2}\frac{(2)}{2!}\bt^{}_{\magenta{}\blue{}\magenta{k}\red{}}\bh^{\blue{}\blue{}\red{y}}_{\blue{l}\red{}}\bz^{\magenta{k}\blue{l}\red{}}_{} + \bar{f}^{2}\frac{(2)}{2!}\bt^{}_{\magenta{}\blue{k}\magenta{}\red{}}\bh^{\blue{k}\blue{}\red{}}_{\blue{l}\red{}}\bz^{\magenta{}\blue{l}\red{y}}_{} + \bar{f}\frac{(2)}{2!}\bt^{}_{\magenta{}\blue{k}\magenta{}\red{}}\bh^{\blue{k}\blue{}\red{y}}_{}\bz_0
"%string.

Example golden_long_matches :
  same_text (do x <- prepare_third_eTz_latex RHS 5 false true true long_line_terms; Ok (render_esum_latex RHS x)) golden_long = true.
Proof. vm_compute. reflexivity. Qed.

(* test_latex_eT_zhz.py, Test_prepare_third_eTz_latex *)
Definition zero_l := mkel 0 0 0 [0] [0] 0 0 0 0.
Definition four_terms : list etterm :=
  [mketterm zero_l [mket 0 0 0 0 0 0 0 0 0 0 0] (mkeh 0 0 0 0 0 [0] [0] 0 0) (mkez 0 0 0 0 0 [0] [0] 0 0 0 0) 1;
   mketterm zero_l [mket 0 0 0 0 0 0 0 0 0 0 0] (mkeh 1 0 1 0 0 [0] [0] 0 1) (mkez 1 1 0 0 0 [0] [0] 1 0 0 0) 1;
   mketterm zero_l [mket 1 0 1 0 0 0 0 0 0 0 1] (mkeh 0 0 0 0 0 [0] [0] 0 0) (mkez 1 1 0 0 0 [1] [0] 0 0 0 0) 1;
   mketterm zero_l [mket 1 0 1 0 0 0 0 0 1 0 0] (mkeh 1 1 0 0 0 [1] [0] 0 0) (mkez 0 0 0 0 0 [0] [0] 0 0 0 0) 1].

(* /repo/tests/deep/files/test_latex_eT_zhz/_prepare_third_eTz_latex_test_basic_out.txt *)
Definition golden_basic : string :=
"(\mathds{1}\bh_0\bz_0 + \bar{f}\mathds{1}\bh^{}_{\blue{k}\red{}}\bz^{\blue{k}\red{}}_{} + \bar{f}\bt^{}_{\magenta{}\blue{}\magenta{k}\red{}}\bh_0\bz^{\magenta{k}\red{}}_{} + \bar{f}\bt^{}_{\magenta{}\blue{k}\magenta{}\red{}}\bh^{\blue{k}\blue{}\red{}}_{}\bz_0)"%string.

Example golden_basic_matches :
  same_text (do x <- prepare_third_eTz_latex RHS 5 false true true four_terms; Ok (render_esum_latex RHS x)) golden_basic = true.
Proof. vm_compute. reflexivity. Qed.

(* /repo/tests/deep/files/test_latex_eT_zhz/_prepare_third_eTz_latex_test_f_terms_and_dupes_out.txt *)
Definition golden_dupes : string :=
"(\mathds{1}\bh_0\bz_0 + \bar{f}\mathds{1}\bh^{}_{\blue{k}\red{}}\bz^{\blue{k}\red{}}_{} + \bar{f}\bt^{}_{\magenta{}\blue{}\magenta{k}\red{}}\bh_0\bz^{\magenta{k}\red{}}_{} + \bar{f}\bt^{}_{\magenta{}\blue{k}\magenta{}\red{}}\bh^{\blue{k}\blue{}\red{}}_{}\bz_0)"%string.

Example golden_dupes_matches :
  same_text (do x <- prepare_third_eTz_latex RHS 5 true true false four_terms; Ok (render_esum_latex RHS x)) golden_dupes = true.
Proof. vm_compute. reflexivity. Qed.

(* test_latex_eT_zhz.py, Test_build_third_eTz_term and Test_generate_eT_z_symmetric_latex_equations *)
Definition small_eT : list series_term := [SOne (mkgop "1" 0 0 0); SLin [mkgop "s_1" 1 0 1]].
Definition small_H : list hop := [mkhop 0 0 0; mkhop 1 0 1; mkhop 1 1 0].
Definition small_Z : list gop := [mkgop "z" 0 0 0; mkgop "z^1" 1 1 0].

(* /repo/tests/deep/files/test_latex_eT_zhz/_build_third_eTz_term_test_basic_out.txt *)
Definition golden_third : string :=
"(\mathds{1}\bh_0\bz^{\red{y}}_{} + \mathds{1}\bh^{\blue{}\red{y}}_{}\bz_0 + \bar{f}\bt^{}_{\magenta{}\blue{}\magenta{k}\red{}}\bh^{\blue{}\blue{}\red{y}}_{}\bz^{\magenta{k}\red{}}_{} + \bar{f}\bt^{}_{\magenta{}\blue{k}\magenta{}\red{}}\bh^{\blue{k}\blue{}\red{}}_{}\bz^{\magenta{}\red{y}}_{})"%string.

Example golden_third_matches :
  same_text (do x <- build_third_eTz_term (mkgop "b" 1 0 1) small_eT small_H small_Z RHS false; Ok (render_third_eTz RHS x)) golden_third = true.
Proof. vm_compute. reflexivity. Qed.

(* /repo/tests/deep/files/test_latex_eT_zhz/_generate_eT_z_symmetric_latex_equations_test_basic_out.txt *)
Definition golden_equation : string :=
"\bh^{i}(1-\delta_{x\gamma})\\&+\sum\Big((\mathds{1}\bh_0\bz^{\red{y}} + \mathds{1}\bh^{\blue{}\red{y}}\bz_0 + \bar{f}\bt_{\magenta{}\blue{}\magenta{k}\red{}}\bh^{\blue{}\blue{}\red{y}}\bz^{\magenta{k}\red{}} + \bar{f}\bt_{\magenta{}\blue{k}\magenta{}\red{}}\bh^{\blue{k}\blue{}\red{}}\bz^{\magenta{}\red{y}})\Big)\\&-i\sum\Big(\dv{\hat{\bt}^{i}_{\gamma}}{\tau}\,\hat{\bz}_{0, \gamma} + \dv{\hat{\bt}_{0, \gamma}}{\tau}\,\hat{\bz}^{i}_{\gamma}\Big)"%string.

Example golden_equation_matches :
  same_text (do x <- eT_z_symmetric_latex_sum (mkgop "b" 1 0 1) small_eT small_H small_Z RHS true false; Ok (render_eT_equation RHS (mkgop "b" 1 0 1) x)) golden_equation = true.
Proof. vm_compute. reflexivity. Qed.

(* test_latex_eT_zhz.py, Test_build_eThz_latex_prefactor *)
Definition zero_z := mkez 0 0 0 0 0 [0] [0] 0 0 0 0.
Definition prefactor_text ts h z := do p <- eThz_prefactor ts h z; Ok (render_eT_prefactor p).
Example golden_prefactors :
  (prefactor_text [mket 1 0 1 0 0 0 0 0 0 0 1; mket 1 0 1 0 0 0 0 0 0 0 1] (mkeh 0 0 0 0 0 [0; 0] [0; 0] 0 0)
     (mkez 2 2 0 0 0 [1; 1] [0; 0] 0 0 0 0) = Ok "\frac{2!}{2!2!}" /\
   prefactor_text [mket 0 0 0 0 0 0 0 0 0 0 0] (mkeh 2 0 2 0 0 [0] [0] 0 2) (mkez 2 2 0 0 0 [0] [0] 2 0 0 0) = Ok "\frac{2!}{2!2!}" /\
   prefactor_text [mket 2 0 2 0 0 0 0 0 2 0 0] (mkeh 4 4 0 1 0 [2] [0] 1 0) zero_z = Ok "\frac{(4)(3)2!}{4!2!}" /\
   prefactor_text [mket 2 0 2 0 0 0 0 0 2 0 0] (mkeh 3 0 3 0 2 [0] [1] 0 0) zero_z = Ok "\frac{(3)}{3!2!}" /\
   prefactor_text [mket 2 0 2 0 0 0 0 0 2 0 0] (mkeh 6 2 4 0 1 [2] [0] 0 2) zero_z = Ok "\frac{2!(4)(3)}{2!4!2!}" /\
   prefactor_text [mket 2 0 2 0 0 0 0 0 2 0 0] (mkeh 6 2 4 0 1 [2; 0] [1; 2] 0 0) zero_z = Ok "\frac{2!(4)3!}{2!4!2!}" /\
   prefactor_text [mket 4 2 2 0 0 2 0 0 0 0 2; mket 1 0 1 0 0 0 0 0 0 0 1] (mkeh 0 0 0 0 0 [0; 0] [0; 0] 0 0)
     (mkez 2 2 0 0 0 [1; 1] [0; 0] 0 0 0 0) = Ok "\frac{2!}{2!2!2!2!}")%string.
Proof. repeat split; vm_compute; reflexivity. Qed.
