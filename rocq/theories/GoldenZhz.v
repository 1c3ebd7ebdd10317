(** The model's text against the repository's recorded outputs
    (/repo/tests/deep/files/test_latex_zhz, inputs in
    /repo/tests/deep/large_test_data.py 824-1150 and test_latex_zhz.py
    532-1040).  Tests of the model's faithfulness, not proofs of properties. *)
From Verif Require Import PyBase ModelHelper ModelW ModelFullCC ModelFullCCPy ModelFullCCLatex ModelZhz GoldenW.

Definition golden_file : string :=
"\vspace{2cm}%
%
%
%
%

\begin{equation}
    \hat{\Omega} = 1
\qquad\qquad
    i\dv{\hat{\bt}^{}_{\gamma}}{\tau} = \hat{G}^{}_{\gamma\gamma}
\end{equation}

%
%
%
%
%

\begin{align}\begin{split}
LHS &=
    i\Big(\dv{\hat{\bz}^{}_{\gamma}}{\tau}\Big)
\\ RHS &=
%
%
\bh_{0,xb}(1-\delta_{x\gamma})\\&+\sum\Big((\bh_0\bz_0 + \bar{f}\bh_{\blue{}\blue{k}\red{}}\bz^{\magenta{}\blue{k}\red{}})\Big)(1-\delta_{cb})\\&-i\sum\Big(\dv{\hat{\bt}_{0, \gamma}}{\tau}\,\hat{\bz}_{0, \gamma}\Big)
\end{split}\end{align}

\paragraph{Linear Equations}

%
%
%
%
%

\begin{equation}
    \hat{\Omega} = \down{i}
\qquad\qquad
    i\dv{\hat{\bt}^{i}_{\gamma}}{\tau} = \hat{G}^{i}_{\gamma\gamma}
\end{equation}

%
%
%
%
%

\begin{align}\begin{split}
LHS &=
    i\Big(\dv{\hat{\bz}^{i}_{\gamma}}{\tau}\Big)
\\ RHS &=
%
%
\bh^{i}(1-\delta_{x\gamma})\\&+\sum\Big((\bh_0\bz^{\magenta{}\blue{}\red{y}} + \bh^{\blue{}\blue{}\red{y}}\bz_0)\Big)(1-\delta_{cb})\\&-i\sum\Big(\dv{\hat{\bt}^{i}_{\gamma}}{\tau}\,\hat{\bz}_{0, \gamma} + \dv{\hat{\bt}_{0, \gamma}}{\tau}\,\hat{\bz}^{i}_{\gamma}\Big)
\end{split}\end{align}

\vspace{2cm}%
%
%
%
%

\begin{equation}
    \hat{\Omega} = \up{i}
\qquad\qquad
    i\dv{\hat{\bt}^{}_{i,\gamma}}{\tau} = \hat{G}^{}_{i, \gamma\gamma}
\end{equation}

%
%
%
%
%

\begin{align}\begin{split}
LHS &=
    i\Big(\dv{\hat{\bz}^{i}_{\gamma}}{\tau}\Big)
\\ RHS &=
%
%
\bh_{i}(1-\delta_{x\gamma})\\&+\sum\Big((\bh_{\blue{}\blue{}\red{y}}\bz_0)\Big)(1-\delta_{cb})\\&-i\sum\Big(\dv{\hat{\bt}_{i, \gamma}}{\tau}\,\hat{\bz}_{0, \gamma}\Big)
\end{split}\end{align}

\end{document}"%string.
Definition g_build_fifth_z_term_else_cases_out : string :=
"\dv{\hat{\bt}^{i}_{\gamma}}{\tau}\,\hat{\bz}_{0, \gamma} + \dv{\hat{\bt}_{0, \gamma}}{\tau}\,\hat{\bz}^{i}_{\gamma}"%string.
Definition g_build_fourth_z_term_out : string :=
"(\disconnected{\bz_0\bh_0\bz_0} + \disconnected{\bar{f}\bz^{}_{\blue{k}\red{}}\bh_0\bz^{\magenta{k}\blue{}\red{}}_{}} + \disconnected{f\bz^{\blue{k}\red{}}_{}\bh_0\bz^{}_{\magenta{k}\blue{}\red{}}} + \disconnected{\bar{f}\bz_0\bh^{}_{\blue{}\blue{k}\red{}}\bz^{\magenta{}\blue{k}\red{}}_{}} + \disconnected{f\bz^{k\blue{}\red{}}_{}\bh^{}_{\blue{k}\blue{}\red{}}\bz_0} + \disconnected{f\bz_0\bh^{\blue{}\blue{k}\red{}}_{}\bz^{}_{\magenta{}\blue{k}\red{}}} + \disconnected{\bar{f}\bz^{}_{k\blue{}\red{}}\bh^{\blue{k}\blue{}\red{}}_{}\bz_0})"%string.
Definition g_build_second_z_term_out : string :=
"(\bz_0\bh_0 + f\bz^{k\blue{}\red{}}_{}\bh^{}_{\blue{k}\blue{}\red{}} + \bar{f}\bz^{}_{k\blue{}\red{}}\bh^{\blue{k}\blue{}\red{}}_{})"%string.
Definition g_build_third_z_term_out : string :=
"(\bh_0\bz_0 + \bar{f}\bh^{}_{\blue{}\blue{k}\red{}}\bz^{\magenta{}\blue{k}\red{}}_{})"%string.
Definition g_generate_z_symmetric_latex_equations_out : string :=
"\bh_{0,xb}(1-\delta_{x\gamma})\\&+\sum\Big((\bh_0\bz_0 + \bar{f}\bh_{\blue{}\blue{k}\red{}}\bz^{\magenta{}\blue{k}\red{}})\Big)(1-\delta_{cb})\\&-i\sum\Big(\dv{\hat{\bt}_{0, \gamma}}{\tau}\,\hat{\bz}_{0, \gamma}\Big)"%string.
Definition g_prepare_fourth_z_latex_long_out : string :=
"(
\disconnected{\bz_0\bh_0\bz_0} + \disconnected{\bar{f}\bz^{}_{\blue{k}\red{}}\bh_0\bz^{\magenta{k}\blue{}\red{}}_{}} + \disconnected{\bar{f}^{2}\bz^{}_{\blue{kl}\red{}}\bh_0\bz^{\magenta{kl}\blue{}\red{}}_{}} + \disconnected{f\bz^{\blue{k}\red{}}_{}\bh_0\bz^{}_{\magenta{k}\blue{}\red{}}} + \disconnected{f\bar{f}\bz^{\blue{k}\red{}}_{\blue{l}\red{}}\bh_0\bz^{\magenta{l}\blue{}\red{}}_{\magenta{k}\blue{}\red{}}} + \disconnected{f^{2}\bz^{\blue{kl}\red{}}_{}\bh_0\bz^{}_{\magenta{kl}\blue{}\red{}}} + \disconnected{\bar{f}\bz_0\bh^{}_{\blue{}\blue{k}\red{}}\bz^{\magenta{}\blue{k}\red{}}_{}}
    \\  &+  % split long equation
\disconnected{\bar{f}^{2}\bz^{}_{\blue{k}\red{}}\bh^{}_{\blue{}\blue{l}\red{}}\bz^{\magenta{k}\blue{l}\red{}}_{}} + \disconnected{f\bz^{k\blue{}\red{}}_{}\bh^{}_{\blue{k}\blue{}\red{}}\bz_0} + \disconnected{f\bar{f}\bz^{\blue{k}\red{}}_{}\bh^{}_{\blue{}\blue{l}\red{}}\bz^{\magenta{}\blue{l}\red{}}_{\magenta{k}\blue{}\red{}}} + \disconnected{f\bar{f}\bz^{k\blue{}\red{}}_{\blue{l}\red{}}\bh^{}_{\blue{k}\blue{}\red{}}\bz^{\magenta{l}\blue{}\red{}}_{}} + \disconnected{f^{2}\bz^{k\blue{l}\red{}}_{}\bh^{}_{\blue{k}\blue{}\red{}}\bz^{}_{\magenta{l}\blue{}\red{}}} + \disconnected{\bar{f}^{2}\bz_0\bh^{}_{\blue{}\blue{kl}\red{}}\bz^{\magenta{}\blue{kl}\red{}}_{}} + f\bar{f}\bz^{k\blue{}\red{}}_{}\bh^{}_{\blue{k}\blue{l}\red{}}\bz^{\magenta{}\blue{l}\red{}}_{}
    \\  &+  % split long equation
f\bar{f}^{2}\bz^{k\blue{}\red{}}_{\blue{l}\red{}}\bh^{}_{\blue{k}\blue{m}\red{}}\bz^{\magenta{l}\blue{m}\red{}}_{} + \disconnected{f^{2}\bz^{kl\blue{}\red{}}_{}\bh^{}_{\blue{kl}\blue{}\red{}}\bz_0} + f^{2}\bar{f}\bz^{k\blue{l}\red{}}_{}\bh^{}_{\blue{k}\blue{m}\red{}}\bz^{\magenta{}\blue{m}\red{}}_{\magenta{l}\blue{}\red{}} + \disconnected{f\bz_0\bh^{\blue{}\blue{k}\red{}}_{}\bz^{}_{\magenta{}\blue{k}\red{}}} + \disconnected{\bar{f}\bz^{}_{k\blue{}\red{}}\bh^{\blue{k}\blue{}\red{}}_{}\bz_0} + \disconnected{f\bar{f}\bz^{}_{\blue{k}\red{}}\bh^{\blue{}\blue{l}\red{}}_{}\bz^{\magenta{k}\blue{}\red{}}_{\magenta{}\blue{l}\red{}}} + \disconnected{\bar{f}^{2}\bz^{}_{k\blue{l}\red{}}\bh^{\blue{k}\blue{}\red{}}_{}\bz^{\magenta{l}\blue{}\red{}}_{}}
    \\  &+  % split long equation
\disconnected{f^{2}\bz^{\blue{k}\red{}}_{}\bh^{\blue{}\blue{l}\red{}}_{}\bz^{}_{\magenta{k}\blue{l}\red{}}} + \disconnected{f\bar{f}\bz^{\blue{k}\red{}}_{l\blue{}\red{}}\bh^{\blue{l}\blue{}\red{}}_{}\bz^{}_{\magenta{k}\blue{}\red{}}} + \disconnected{f\bar{f}\bz_0\bh^{\blue{}\blue{l}\red{}}_{\blue{}\blue{k}\red{}}\bz^{\magenta{}\blue{k}\red{}}_{\magenta{}\blue{l}\red{}}} + \bar{f}^{2}\bz^{}_{k\blue{}\red{}}\bh^{\blue{k}\blue{}\red{}}_{\blue{}\blue{l}\red{}}\bz^{\magenta{}\blue{l}\red{}}_{} + \bar{f}^{3}\bz^{}_{k\blue{l}\red{}}\bh^{\blue{k}\blue{}\red{}}_{\blue{}\blue{m}\red{}}\bz^{\magenta{l}\blue{m}\red{}}_{} + f^{2}\bz^{k\blue{}\red{}}_{}\bh^{\blue{}\blue{l}\red{}}_{\blue{k}\blue{}\red{}}\bz^{}_{\magenta{}\blue{l}\red{}} + \disconnected{f\bar{f}\bz^{k\blue{}\red{}}_{l\blue{}\red{}}\bh^{\blue{l}\blue{}\red{}}_{\blue{k}\blue{}\red{}}\bz_0}
    \\  &+  % split long equation
f\bar{f}^{2}\bz^{\blue{k}\red{}}_{l\blue{}\red{}}\bh^{\blue{l}\blue{}\red{}}_{\blue{}\blue{m}\red{}}\bz^{\magenta{}\blue{m}\red{}}_{\magenta{k}\blue{}\red{}} + f^{2}\bar{f}\bz^{k\blue{}\red{}}_{\blue{l}\red{}}\bh^{\blue{}\blue{m}\red{}}_{\blue{k}\blue{}\red{}}\bz^{\magenta{l}\blue{}\red{}}_{\magenta{}\blue{m}\red{}} + f^{3}\bz^{k\blue{l}\red{}}_{}\bh^{\blue{}\blue{m}\red{}}_{\blue{k}\blue{}\red{}}\bz^{}_{\magenta{l}\blue{m}\red{}} + \disconnected{f^{2}\bz_0\bh^{\blue{}\blue{kl}\red{}}_{}\bz^{}_{\magenta{}\blue{kl}\red{}}} + f\bar{f}\bz^{}_{k\blue{}\red{}}\bh^{\blue{k}\blue{l}\red{}}_{}\bz^{}_{\magenta{}\blue{l}\red{}} + \disconnected{\bar{f}^{2}\bz^{}_{kl\blue{}\red{}}\bh^{\blue{kl}\blue{}\red{}}_{}\bz_0} + f\bar{f}^{2}\bz^{}_{k\blue{l}\red{}}\bh^{\blue{k}\blue{m}\red{}}_{}\bz^{\magenta{l}\blue{}\red{}}_{\magenta{}\blue{m}\red{}}
    \\  &+  % split long equation
\disconnected{f^{2}\bz_0\bh^{\blue{}\blue{kl}\red{}}_{}\bz^{}_{\magenta{}\blue{kl}\red{}}} + f\bar{f}\bz^{}_{k\blue{}\red{}}\bh^{\blue{k}\blue{l}\red{}}_{}\bz^{}_{\magenta{}\blue{l}\red{}} + \disconnected{\bar{f}^{2}\bz^{}_{kl\blue{}\red{}}\bh^{\blue{kl}\blue{}\red{}}_{}\bz_0} + f\bar{f}^{2}\bz^{}_{k\blue{l}\red{}}\bh^{\blue{k}\blue{m}\red{}}_{}\bz^{\magenta{l}\blue{}\red{}}_{\magenta{}\blue{m}\red{}} + f^{2}\bar{f}\bz^{\blue{k}\red{}}_{l\blue{}\red{}}\bh^{\blue{l}\blue{m}\red{}}_{}\bz^{}_{\magenta{k}\blue{m}\red{}}
)"%string.
Definition g_prepare_fourth_z_latex_out : string :=
"(\disconnected{\bz_0\bh_0\bz_0} + \disconnected{\bar{f}\bz^{}_{\blue{k}\red{}}\bh_0\bz^{\magenta{k}\blue{}\red{}}_{}} + \disconnected{f\bz^{\blue{k}\red{}}_{}\bh_0\bz^{}_{\magenta{k}\blue{}\red{}}} + \disconnected{\bar{f}\bz_0\bh^{}_{\blue{}\blue{k}\red{}}\bz^{\magenta{}\blue{k}\red{}}_{}} + \disconnected{f\bz^{k\blue{}\red{}}_{}\bh^{}_{\blue{k}\blue{}\red{}}\bz_0} + \disconnected{f\bz_0\bh^{\blue{}\blue{k}\red{}}_{}\bz^{}_{\magenta{}\blue{k}\red{}}} + \disconnected{\bar{f}\bz^{}_{k\blue{}\red{}}\bh^{\blue{k}\blue{}\red{}}_{}\bz_0})"%string.
Definition g_prepare_second_z_latex_basic_case_1_out : string :=
"(\bz_0\bh_0 + f\bz^{k\blue{}\red{}}_{}\bh^{}_{\blue{k}\blue{}\red{}} + \bar{f}\bz^{}_{k\blue{}\red{}}\bh^{\blue{k}\blue{}\red{}}_{})"%string.
Definition g_prepare_third_z_latex_if_case_out : string :=
"(\bh_0\bz_0 + \bar{f}\bh^{}_{\blue{}\blue{k}\red{}}\bz^{\magenta{}\blue{k}\red{}}_{} + f\bh^{\blue{}\blue{k}\red{}}_{}\bz^{}_{\magenta{}\blue{k}\red{}})"%string.

Definition short_terms : list zterm :=
  [(mkl 0 0 0 0 0 0 0 0 0, mkhz 0 0 0 0 0 0 0 0 0, (Some (mkz 0 0 0 0 0 0 0 0 0), Some (mkz 0 0 0 0 0 0 0 0 0))); (mkl 0 0 0 0 0 0 0 0 0, mkhz 0 0 0 0 0 0 0 0 0, (Some (mkz 1 0 1 0 0 0 0 0 1), Some (mkz 1 1 0 0 0 0 0 1 0))); (mkl 0 0 0 0 0 0 0 0 0, mkhz 0 0 0 0 0 0 0 0 0, (Some (mkz 1 1 0 0 0 0 0 1 0), Some (mkz 1 0 1 0 0 0 0 0 1))); (mkl 0 0 0 0 0 0 0 0 0, mkhz 1 0 1 0 0 0 0 0 1, (Some (mkz 0 0 0 0 0 0 0 0 0), Some (mkz 1 1 0 0 0 1 0 0 0))); (mkl 0 0 0 0 0 0 0 0 0, mkhz 1 0 1 0 0 0 1 0 0, (Some (mkz 1 1 0 0 0 1 0 0 0), Some (mkz 0 0 0 0 0 0 0 0 0))); (mkl 0 0 0 0 0 0 0 0 0, mkhz 1 1 0 0 0 0 0 1 0, (Some (mkz 0 0 0 0 0 0 0 0 0), Some (mkz 1 0 1 0 0 0 1 0 0))); (mkl 0 0 0 0 0 0 0 0 0, mkhz 1 1 0 0 0 1 0 0 0, (Some (mkz 1 0 1 0 0 0 1 0 0), Some (mkz 0 0 0 0 0 0 0 0 0)))].
Definition long_terms : list zterm :=
  [(mkl 0 0 0 0 0 0 0 0 0, mkhz 0 0 0 0 0 0 0 0 0, (Some (mkz 0 0 0 0 0 0 0 0 0), Some (mkz 0 0 0 0 0 0 0 0 0))); (mkl 0 0 0 0 0 0 0 0 0, mkhz 0 0 0 0 0 0 0 0 0, (Some (mkz 1 0 1 0 0 0 0 0 1), Some (mkz 1 1 0 0 0 0 0 1 0))); (mkl 0 0 0 0 0 0 0 0 0, mkhz 0 0 0 0 0 0 0 0 0, (Some (mkz 2 0 2 0 0 0 0 0 2), Some (mkz 2 2 0 0 0 0 0 2 0))); (mkl 0 0 0 0 0 0 0 0 0, mkhz 0 0 0 0 0 0 0 0 0, (Some (mkz 1 1 0 0 0 0 0 1 0), Some (mkz 1 0 1 0 0 0 0 0 1))); (mkl 0 0 0 0 0 0 0 0 0, mkhz 0 0 0 0 0 0 0 0 0, (Some (mkz 2 1 1 0 0 0 0 1 1), Some (mkz 2 1 1 0 0 0 0 1 1))); (mkl 0 0 0 0 0 0 0 0 0, mkhz 0 0 0 0 0 0 0 0 0, (Some (mkz 2 2 0 0 0 0 0 2 0), Some (mkz 2 0 2 0 0 0 0 0 2))); (mkl 0 0 0 0 0 0 0 0 0, mkhz 1 0 1 0 0 0 0 0 1, (Some (mkz 0 0 0 0 0 0 0 0 0), Some (mkz 1 1 0 0 0 1 0 0 0))); (mkl 0 0 0 0 0 0 0 0 0, mkhz 1 0 1 0 0 0 0 0 1, (Some (mkz 1 0 1 0 0 0 0 0 1), Some (mkz 2 2 0 0 0 1 0 1 0))); (mkl 0 0 0 0 0 0 0 0 0, mkhz 1 0 1 0 0 0 1 0 0, (Some (mkz 1 1 0 0 0 1 0 0 0), Some (mkz 0 0 0 0 0 0 0 0 0))); (mkl 0 0 0 0 0 0 0 0 0, mkhz 1 0 1 0 0 0 0 0 1, (Some (mkz 1 1 0 0 0 0 0 1 0), Some (mkz 2 1 1 0 0 1 0 0 1))); (mkl 0 0 0 0 0 0 0 0 0, mkhz 1 0 1 0 0 0 1 0 0, (Some (mkz 2 1 1 0 0 1 0 0 1), Some (mkz 1 1 0 0 0 0 0 1 0))); (mkl 0 0 0 0 0 0 0 0 0, mkhz 1 0 1 0 0 0 1 0 0, (Some (mkz 2 2 0 0 0 1 0 1 0), Some (mkz 1 0 1 0 0 0 0 0 1))); (mkl 0 0 0 0 0 0 0 0 0, mkhz 2 0 2 0 0 0 0 0 2, (Some (mkz 0 0 0 0 0 0 0 0 0), Some (mkz 2 2 0 0 0 2 0 0 0))); (mkl 0 0 0 0 0 0 0 0 0, mkhz 2 0 2 0 0 0 1 0 1, (Some (mkz 1 1 0 0 0 1 0 0 0), Some (mkz 1 1 0 0 0 1 0 0 0))); (mkl 0 0 0 0 0 0 0 0 0, mkhz 2 0 2 0 0 0 1 0 1, (Some (mkz 2 1 1 0 0 1 0 0 1), Some (mkz 2 2 0 0 0 1 0 1 0))); (mkl 0 0 0 0 0 0 0 0 0, mkhz 2 0 2 0 0 0 2 0 0, (Some (mkz 2 2 0 0 0 2 0 0 0), Some (mkz 0 0 0 0 0 0 0 0 0))); (mkl 0 0 0 0 0 0 0 0 0, mkhz 2 0 2 0 0 0 1 0 1, (Some (mkz 2 2 0 0 0 1 0 1 0), Some (mkz 2 1 1 0 0 1 0 0 1))); (mkl 0 0 0 0 0 0 0 0 0, mkhz 1 1 0 0 0 0 0 1 0, (Some (mkz 0 0 0 0 0 0 0 0 0), Some (mkz 1 0 1 0 0 0 1 0 0))); (mkl 0 0 0 0 0 0 0 0 0, mkhz 1 1 0 0 0 1 0 0 0, (Some (mkz 1 0 1 0 0 0 1 0 0), Some (mkz 0 0 0 0 0 0 0 0 0))); (mkl 0 0 0 0 0 0 0 0 0, mkhz 1 1 0 0 0 0 0 1 0, (Some (mkz 1 0 1 0 0 0 0 0 1), Some (mkz 2 1 1 0 0 0 1 1 0))); (mkl 0 0 0 0 0 0 0 0 0, mkhz 1 1 0 0 0 1 0 0 0, (Some (mkz 2 0 2 0 0 0 1 0 1), Some (mkz 1 1 0 0 0 0 0 1 0))); (mkl 0 0 0 0 0 0 0 0 0, mkhz 1 1 0 0 0 0 0 1 0, (Some (mkz 1 1 0 0 0 0 0 1 0), Some (mkz 2 0 2 0 0 0 1 0 1))); (mkl 0 0 0 0 0 0 0 0 0, mkhz 1 1 0 0 0 1 0 0 0, (Some (mkz 2 1 1 0 0 0 1 1 0), Some (mkz 1 0 1 0 0 0 0 0 1))); (mkl 0 0 0 0 0 0 0 0 0, mkhz 2 1 1 0 0 0 0 1 1, (Some (mkz 0 0 0 0 0 0 0 0 0), Some (mkz 2 1 1 0 0 1 1 0 0))); (mkl 0 0 0 0 0 0 0 0 0, mkhz 2 1 1 0 0 1 0 0 1, (Some (mkz 1 0 1 0 0 0 1 0 0), Some (mkz 1 1 0 0 0 1 0 0 0))); (mkl 0 0 0 0 0 0 0 0 0, mkhz 2 1 1 0 0 1 0 0 1, (Some (mkz 2 0 2 0 0 0 1 0 1), Some (mkz 2 2 0 0 0 1 0 1 0))); (mkl 0 0 0 0 0 0 0 0 0, mkhz 2 1 1 0 0 0 1 1 0, (Some (mkz 1 1 0 0 0 1 0 0 0), Some (mkz 1 0 1 0 0 0 1 0 0))); (mkl 0 0 0 0 0 0 0 0 0, mkhz 2 1 1 0 0 1 1 0 0, (Some (mkz 2 1 1 0 0 1 1 0 0), Some (mkz 0 0 0 0 0 0 0 0 0))); (mkl 0 0 0 0 0 0 0 0 0, mkhz 2 1 1 0 0 1 0 0 1, (Some (mkz 2 1 1 0 0 0 1 1 0), Some (mkz 2 1 1 0 0 1 0 0 1))); (mkl 0 0 0 0 0 0 0 0 0, mkhz 2 1 1 0 0 0 1 1 0, (Some (mkz 2 1 1 0 0 1 0 0 1), Some (mkz 2 1 1 0 0 0 1 1 0))); (mkl 0 0 0 0 0 0 0 0 0, mkhz 2 1 1 0 0 0 1 1 0, (Some (mkz 2 2 0 0 0 1 0 1 0), Some (mkz 2 0 2 0 0 0 1 0 1))); (mkl 0 0 0 0 0 0 0 0 0, mkhz 2 2 0 0 0 0 0 2 0, (Some (mkz 0 0 0 0 0 0 0 0 0), Some (mkz 2 0 2 0 0 0 2 0 0))); (mkl 0 0 0 0 0 0 0 0 0, mkhz 2 2 0 0 0 1 0 1 0, (Some (mkz 1 0 1 0 0 0 1 0 0), Some (mkz 1 0 1 0 0 0 1 0 0))); (mkl 0 0 0 0 0 0 0 0 0, mkhz 2 2 0 0 0 2 0 0 0, (Some (mkz 2 0 2 0 0 0 2 0 0), Some (mkz 0 0 0 0 0 0 0 0 0))); (mkl 0 0 0 0 0 0 0 0 0, mkhz 2 2 0 0 0 1 0 1 0, (Some (mkz 2 0 2 0 0 0 1 0 1), Some (mkz 2 1 1 0 0 0 1 1 0))); (mkl 0 0 0 0 0 0 0 0 0, mkhz 2 2 0 0 0 1 0 1 0, (Some (mkz 2 1 1 0 0 0 1 1 0), Some (mkz 2 0 2 0 0 0 1 0 1)))].
Definition second_terms : list zterm :=
  [(mkl 1 0 1 0 1 0 0 0 0, mkhz 0 0 0 0 0 0 0 0 0, (Some (mkz 1 1 0 1 0 0 0 0 0), None)); (mkl 1 0 1 0 0 0 1 0 0, mkhz 1 1 0 1 0 0 0 0 0, (Some (mkz 0 0 0 0 0 0 0 0 0), None))].
Definition second_terms_1 : list zterm :=
  [(mkl 0 0 0 0 0 0 0 0 0, mkhz 0 0 0 0 0 0 0 0 0, (Some (mkz 0 0 0 0 0 0 0 0 0), None)); (mkl 0 0 0 0 0 0 0 0 0, mkhz 1 0 1 0 0 0 1 0 0, (Some (mkz 1 1 0 0 0 1 0 0 0), None)); (mkl 0 0 0 0 0 0 0 0 0, mkhz 1 1 0 0 0 1 0 0 0, (Some (mkz 1 0 1 0 0 0 1 0 0), None))].
Definition third_terms_if : list zterm :=
  [(mkl 0 0 0 0 0 0 0 0 0, mkhz 0 0 0 0 0 0 0 0 0, (None, Some (mkz 0 0 0 0 0 0 0 0 0))); (mkl 0 0 0 0 0 0 0 0 0, mkhz 1 0 1 0 0 0 0 0 1, (None, Some (mkz 1 1 0 0 0 1 0 0 0))); (mkl 0 0 0 0 0 0 0 0 0, mkhz 1 1 0 0 0 0 0 1 0, (None, Some (mkz 1 0 1 0 0 0 1 0 0)))].

Definition text_of (c : string) (r : res zsum) : res string := do s <- r; Ok (render_zsum c s).
Definition text_of_z (c : string) (r : res (option zsum)) : res string := do s <- r; Ok (render_z_term c s).

Example golden_z_file :
  same_text (generate_z_t_symmetric_latex 1 1 1 true false) golden_file = true.
Proof. vm_compute. reflexivity. Qed.
Example golden_z_short :
  same_text (text_of ")" (prepare_fourth_z_latex short_terms false)) g_prepare_fourth_z_latex_out = true.
Proof. vm_compute. reflexivity. Qed.
Example golden_z_long :
  same_text (text_of ")" (prepare_fourth_z_latex long_terms false)) g_prepare_fourth_z_latex_long_out = true.
Proof. vm_compute. reflexivity. Qed.
Example golden_z_second :
  same_text (text_of ")" (prepare_second_z_latex second_terms false))
    "(\bz^{\blue{}\red{y}}_{}\bh_0 + \bz_0\bh^{\blue{}\blue{}\red{y}}_{})" = true.
Proof. vm_compute. reflexivity. Qed.
Example golden_z_second_1 :
  same_text (text_of ")" (prepare_second_z_latex second_terms_1 false)) g_prepare_second_z_latex_basic_case_1_out = true.
Proof. vm_compute. reflexivity. Qed.
Example golden_z_third_if :
  same_text (text_of "" (prepare_third_z_latex third_terms_if false false)) g_prepare_third_z_latex_if_case_out = true.
Proof. vm_compute. reflexivity. Qed.

Definition lhs0 := mkgop "" 0 0 0.
Definition H1 := [mkhop 0 0 0; mkhop 1 0 1; mkhop 1 1 0].
Example golden_z_build :
  same_text (text_of_z ")" (build_second_z_term lhs0 H1 (generate_z_operator 1 false) false)) g_build_second_z_term_out
  && same_text (text_of_z "" (build_third_z_term lhs0 H1 (generate_z_operator 1 true) false)) g_build_third_z_term_out
  && same_text (text_of_z ")" (build_fourth_z_term lhs0 H1 (generate_z_operator 1 false) false)) g_build_fourth_z_term_out
  && same_text (Ok (render_fifth_term lhs0)) "\dv{\hat{\bt}_{0, \gamma}}{\tau}\,\hat{\bz}_{0, \gamma}"
  && same_text (Ok (render_fifth_term (mkgop "b" 1 0 1))) g_build_fifth_z_term_else_cases_out
  && same_text (generate_z_symmetric_latex_equations lhs0 H1 (generate_z_operator 1 true) true false)
       g_generate_z_symmetric_latex_equations_out
  && same_text (Ok (build_first_z_term lhs0)) "\bh_{0,xb}(1-\delta_{x\gamma})"
  && same_text (Ok (build_first_z_term (mkgop "b" 1 0 1))) "\bh^{i}_{}(1-\delta_{x\gamma})"
  && same_text (Ok (render_simplified_prefactor (hz_prefactor (mkhz 2 2 0 2 0 0 0 1 0) (mkz 0 0 0 0 0 0 0 0 0)))) ""
  && same_text (Ok (render_simplified_prefactor (hz_prefactor (mkhz 4 0 4 0 3 0 0 1 1) (mkz 1 1 0 0 0 1 0 0 0)))) "\frac{1}{6}"
  && same_text (Ok (render_simplified_prefactor (hz_prefactor (mkhz 4 0 4 0 2 0 0 0 2) (mkz 3 3 0 1 0 2 0 0 0)))) "\frac{1}{4}"
  && same_text (Ok (render_simplified_prefactor (hz_prefactor (mkhz 4 0 4 0 2 0 0 0 2) (mkz 3 3 2 1 1 2 2 0 0)))) "\frac{1}{2}"
  && same_text (Ok (render_hz_prefactor (hz_prefactor (mkhz 3 0 3 0 3 0 0 0 0) (mkz 2 2 0 1 0 1 0 0 0)))) "\frac{2}{3!2!}"
  = true.
Proof. vm_compute. reflexivity. Qed.
