(** The model's text against the repository's recorded outputs
    (/repo/tests/deep/files/test_latex_full_cc, inputs in
    /repo/tests/deep/large_test_data.py 478-746 and test_latex_full_cc.py
    992-1420).  Tests of the model's faithfulness, not proofs of properties.
    The order of one set in the recorded text differs from that of the
    identity, see [so_recorded]. *)
From Verif Require Import PyBase ModelHelper ModelW ModelFullCC ModelFullCCPy ModelFullCCLatex GoldenW.

(* /repo/tests/deep/files/test_latex_full_cc/excited_state_fcc_latex.tex after the header *)
Definition golden_excited : string :=
"%
%
%
%
%

\begin{align}\begin{split}
    \hat{\Omega} = 1
\\ LHS &=
    i\left(\varepsilon\right)
\\ RHS &=
%
%
(\bh_0 + \bh^{\blue{}\red{}}_{\blue{i}\red{}}\bt^{\blue{i}\red{}} + \frac{1}{2!}\bh^{\blue{}\red{}}_{\blue{ij}\red{}}\bt^{\blue{ij}\red{}} + \bh^{\blue{i}\red{}}_{\blue{}\red{}}\bt_{\blue{i}\red{}} + \bh^{\blue{i}\red{}}_{\blue{j}\red{}}\bt^{\blue{j}\red{}}_{\blue{i}\red{}} + \frac{1}{2!}\bh^{\blue{ij}\red{}}_{\blue{}\red{}}\bt_{\blue{ij}\red{}} + \frac{1}{2!2!}\bh^{\blue{}\red{}}_{\blue{ij}\red{}}\bt^{\blue{i}\red{}}\bt^{\blue{j}\red{}} + \bh^{\blue{i}\red{}}_{\blue{j}\red{}}\bt_{\blue{i}\red{}}\bt^{\blue{j}\red{}} + \frac{1}{2!2!}\bh^{\blue{ij}\red{}}_{\blue{}\red{}}\bt_{\blue{i}\red{}}\bt_{\blue{j}\red{}}) + () + ()
\end{split}\end{align}

%
%
%
%
%

\subsection{Linear Equations}

\begin{align}\begin{split}
    \hat{\Omega} = \down{i}
\\ LHS &=
    i\left(\dv{\bt^{i}_{}}{\tau} + \bt^{i}_{}\varepsilon\right)
\\ RHS &=
%
%
(\bar{f}\bh^{\blue{}\red{z}}_{\blue{}\red{}} + \bh^{\blue{}\red{}}_{\blue{i}\red{}}\bt^{\blue{i}\red{z}} + \bh^{\blue{i}\red{}}_{\blue{}\red{}}\bt^{\blue{}\red{z}}_{\blue{i}\red{}} + \bar{f}\bh^{\blue{}\red{z}}_{\blue{i}\red{}}\bt^{\blue{i}\red{}} + \bar{f}\frac{1}{2!}\bh^{\blue{i}\red{z}}_{\blue{}\red{}}\bt_{\blue{i}\red{}} + \frac{1}{2!}\bh^{\blue{}\red{}}_{\blue{ij}\red{}}\bt^{\blue{i}\red{}}\bt^{\blue{j}\red{z}} + \bh^{\blue{i}\red{}}_{\blue{j}\red{}}\bt^{\blue{}\red{z}}_{\blue{i}\red{}}\bt^{\blue{j}\red{}} + \bh^{\blue{i}\red{}}_{\blue{j}\red{}}\bt_{\blue{i}\red{}}\bt^{\blue{j}\red{z}} + \frac{1}{2!}\bh^{\blue{ij}\red{}}_{\blue{}\red{}}\bt_{\blue{i}\red{}}\bt^{\blue{}\red{z}}_{\blue{j}\red{}})
%
%
\\  &+
%
%
    \textit{no linked disconnected terms}
%
%
\\  &+
%
%
(\bh_0 + \frac{1}{2!}\bh^{\blue{}\red{}}_{\blue{i}\red{}}\bt^{\blue{i}\red{}} + \frac{1}{2!2!}\bh^{\blue{}\red{}}_{\blue{ij}\red{}}\bt^{\blue{ij}\red{}} + \frac{1}{2!}\bh^{\blue{i}\red{}}_{\blue{}\red{}}\bt_{\blue{i}\red{}} + \frac{1}{2!}\bh^{\blue{i}\red{}}_{\blue{j}\red{}}\bt^{\blue{j}\red{}}_{\blue{i}\red{}} + \frac{1}{2!2!}\bh^{\blue{ij}\red{}}_{\blue{}\red{}}\bt_{\blue{ij}\red{}})\bt^{\blue{}\red{z}}
\end{split}\end{align}

%
%
%
%
%

\begin{align}\begin{split}
    \hat{\Omega} = \up{i}
\\ LHS &=
    i\left(\dv{\bt^{}_{i}}{\tau} + \bt^{}_{i}\varepsilon\right)
\\ RHS &=
%
%
(f\bh^{\blue{}\red{}}_{\blue{}\red{z}} + \bh^{\blue{}\red{}}_{\blue{i}\red{}}\bt^{\blue{i}\red{}}_{\blue{}\red{z}} + f\frac{1}{2!}\bh^{\blue{}\red{}}_{\blue{i}\red{z}}\bt^{\blue{i}\red{}} + \bh^{\blue{i}\red{}}_{\blue{}\red{}}\bt_{\blue{i}\red{z}} + f\bh^{\blue{i}\red{}}_{\blue{}\red{z}}\bt_{\blue{i}\red{}} + \frac{1}{2!}\bh^{\blue{}\red{}}_{\blue{ij}\red{}}\bt^{\blue{i}\red{}}\bt^{\blue{j}\red{}}_{\blue{}\red{z}} + \bh^{\blue{i}\red{}}_{\blue{j}\red{}}\bt_{\blue{i}\red{z}}\bt^{\blue{j}\red{}} + \bh^{\blue{i}\red{}}_{\blue{j}\red{}}\bt_{\blue{i}\red{}}\bt^{\blue{j}\red{}}_{\blue{}\red{z}} + \frac{1}{2!}\bh^{\blue{ij}\red{}}_{\blue{}\red{}}\bt_{\blue{i}\red{}}\bt_{\blue{j}\red{z}})
%
%
\\  &+
%
%
    \textit{no linked disconnected terms}
%
%
\\  &+
%
%
(\bh_0 + \frac{1}{2!}\bh^{\blue{}\red{}}_{\blue{i}\red{}}\bt^{\blue{i}\red{}} + \frac{1}{2!2!}\bh^{\blue{}\red{}}_{\blue{ij}\red{}}\bt^{\blue{ij}\red{}} + \frac{1}{2!}\bh^{\blue{i}\red{}}_{\blue{}\red{}}\bt_{\blue{i}\red{}} + \frac{1}{2!}\bh^{\blue{i}\red{}}_{\blue{j}\red{}}\bt^{\blue{j}\red{}}_{\blue{i}\red{}} + \frac{1}{2!2!}\bh^{\blue{ij}\red{}}_{\blue{}\red{}}\bt_{\blue{ij}\red{}})\bt_{\blue{}\red{z}}
\end{split}\end{align}

%
%
%
%
%

\newpage
\subsection{Quadratic Equations}

\begin{align}\begin{split}
    \hat{\Omega} = \down{i}\down{j}
\\ LHS &=
    i\left(\dv{\bt^{ij}_{}}{\tau} + \dv{\bt^{i}_{}}{\tau}\bt^{j}_{} + \bt^{i}_{}\dv{\bt^{j}_{}}{\tau} + \bt^{ij}_{}\varepsilon + \bt^{i}_{}\bt^{j}_{}\varepsilon\right)
\\ RHS &=
%
%
(\bar{f}^{2}\bh^{\blue{}\red{zy}}_{\blue{}\red{}} + \bar{f}\bh^{\blue{}\red{z}}_{\blue{i}\red{}}\bt^{\blue{i}\red{y}} + \bar{f}\frac{1}{2!}\bh^{\blue{i}\red{z}}_{\blue{}\red{}}\bt^{\blue{}\red{y}}_{\blue{i}\red{}} + \frac{1}{2!2!}\bh^{\blue{}\red{}}_{\blue{ij}\red{}}\bt^{\blue{i}\red{z}}\bt^{\blue{j}\red{y}} + \bh^{\blue{i}\red{}}_{\blue{j}\red{}}\bt^{\blue{}\red{z}}_{\blue{i}\red{}}\bt^{\blue{j}\red{y}} + \frac{1}{2!2!}\bh^{\blue{ij}\red{}}_{\blue{}\red{}}\bt^{\blue{}\red{z}}_{\blue{i}\red{}}\bt^{\blue{}\red{y}}_{\blue{j}\red{}})
%
%
\\  &+
%
%
(\frac{1}{2!}\bh_0)\bt^{\blue{}\red{z}}\bt^{\blue{}\red{y}}
    \\  &+  % split long equation
(\bar{f}\bh^{\blue{}\red{y}}_{\blue{}\red{}} + \frac{1}{2!}\bh^{\blue{}\red{}}_{\blue{i}\red{}}\bt^{\blue{i}\red{y}} + \frac{1}{2!}\bh^{\blue{i}\red{}}_{\blue{}\red{}}\bt^{\blue{}\red{y}}_{\blue{i}\red{}} + \bar{f}\frac{1}{2!}\bh^{\blue{}\red{y}}_{\blue{i}\red{}}\bt^{\blue{i}\red{}} + \bar{f}\frac{1}{2!2!}\bh^{\blue{i}\red{y}}_{\blue{}\red{}}\bt_{\blue{i}\red{}})\bt^{\blue{}\red{z}}
%
%
\\  &+
%
%
(\bh_0 + \frac{1}{2!}\bh^{\blue{}\red{}}_{\blue{i}\red{}}\bt^{\blue{i}\red{}} + \frac{1}{2!2!}\bh^{\blue{}\red{}}_{\blue{ij}\red{}}\bt^{\blue{ij}\red{}} + \frac{1}{2!}\bh^{\blue{i}\red{}}_{\blue{}\red{}}\bt_{\blue{i}\red{}} + \frac{1}{2!}\bh^{\blue{i}\red{}}_{\blue{j}\red{}}\bt^{\blue{j}\red{}}_{\blue{i}\red{}} + \frac{1}{2!2!}\bh^{\blue{ij}\red{}}_{\blue{}\red{}}\bt_{\blue{ij}\red{}})\bt^{\blue{}\red{zy}}
\end{split}\end{align}

%
%
%
%
%

\begin{align}\begin{split}
    \hat{\Omega} = \up{i}\down{j}
\\ LHS &=
    i\left(\dv{\bt^{i}_{j}}{\tau} + \dv{\bt^{i}_{}}{\tau}\bt^{}_{j} + \bt^{i}_{}\dv{\bt^{}_{j}}{\tau} + \bt^{i}_{j}\varepsilon + \bt^{i}_{}\bt^{}_{j}\varepsilon\right)
\\ RHS &=
%
%
(f\bar{f}\bh^{\blue{}\red{z}}_{\blue{}\red{y}} + f\frac{1}{2!}\bh^{\blue{}\red{}}_{\blue{i}\red{z}}\bt^{\blue{i}\red{y}} + \bar{f}\bh^{\blue{}\red{z}}_{\blue{i}\red{}}\bt^{\blue{i}\red{}}_{\blue{}\red{y}} + f\bh^{\blue{i}\red{}}_{\blue{}\red{z}}\bt^{\blue{}\red{y}}_{\blue{i}\red{}} + \bar{f}\frac{1}{2!}\bh^{\blue{i}\red{z}}_{\blue{}\red{}}\bt_{\blue{i}\red{y}} + \frac{1}{2!}\bh^{\blue{}\red{}}_{\blue{ij}\red{}}\bt^{\blue{i}\red{}}_{\blue{}\red{z}}\bt^{\blue{j}\red{y}} + \bh^{\blue{i}\red{}}_{\blue{j}\red{}}\bt_{\blue{i}\red{z}}\bt^{\blue{j}\red{y}} + \bh^{\blue{i}\red{}}_{\blue{j}\red{}}\bt^{\blue{}\red{z}}_{\blue{i}\red{}}\bt^{\blue{j}\red{}}_{\blue{}\red{y}} + \frac{1}{2!}\bh^{\blue{ij}\red{}}_{\blue{}\red{}}\bt_{\blue{i}\red{z}}\bt^{\blue{}\red{y}}_{\blue{j}\red{}})
%
%
\\  &+
%
%
(\frac{1}{2!}\bh_0)\bt_{\blue{}\red{z}}\bt^{\blue{}\red{y}}
    \\  &+  % split long equation
(f\bh^{\blue{}\red{}}_{\blue{}\red{y}} + \frac{1}{2!}\bh^{\blue{}\red{}}_{\blue{i}\red{}}\bt^{\blue{i}\red{}}_{\blue{}\red{y}} + f\frac{1}{2!2!}\bh^{\blue{}\red{}}_{\blue{i}\red{y}}\bt^{\blue{i}\red{}} + \frac{1}{2!}\bh^{\blue{i}\red{}}_{\blue{}\red{}}\bt_{\blue{i}\red{y}} + f\frac{1}{2!}\bh^{\blue{i}\red{}}_{\blue{}\red{y}}\bt_{\blue{i}\red{}})\bt^{\blue{}\red{z}}
    \\  &+  % split long equation
(\bar{f}\bh^{\blue{}\red{y}}_{\blue{}\red{}} + \frac{1}{2!}\bh^{\blue{}\red{}}_{\blue{i}\red{}}\bt^{\blue{i}\red{y}} + \frac{1}{2!}\bh^{\blue{i}\red{}}_{\blue{}\red{}}\bt^{\blue{}\red{y}}_{\blue{i}\red{}} + \bar{f}\frac{1}{2!}\bh^{\blue{}\red{y}}_{\blue{i}\red{}}\bt^{\blue{i}\red{}} + \bar{f}\frac{1}{2!2!}\bh^{\blue{i}\red{y}}_{\blue{}\red{}}\bt_{\blue{i}\red{}})\bt_{\blue{}\red{z}}
%
%
\\  &+
%
%
(\bh_0 + \frac{1}{2!}\bh^{\blue{}\red{}}_{\blue{i}\red{}}\bt^{\blue{i}\red{}} + \frac{1}{2!2!}\bh^{\blue{}\red{}}_{\blue{ij}\red{}}\bt^{\blue{ij}\red{}} + \frac{1}{2!}\bh^{\blue{i}\red{}}_{\blue{}\red{}}\bt_{\blue{i}\red{}} + \frac{1}{2!}\bh^{\blue{i}\red{}}_{\blue{j}\red{}}\bt^{\blue{j}\red{}}_{\blue{i}\red{}} + \frac{1}{2!2!}\bh^{\blue{ij}\red{}}_{\blue{}\red{}}\bt_{\blue{ij}\red{}})\bt^{\blue{}\red{y}}_{\blue{}\red{z}}
\end{split}\end{align}

%
%
%
%
%

\begin{align}\begin{split}
    \hat{\Omega} = \up{i}\up{j}
\\ LHS &=
    i\left(\dv{\bt^{}_{ij}}{\tau} + \dv{\bt^{}_{i}}{\tau}\bt^{}_{j} + \bt^{}_{i}\dv{\bt^{}_{j}}{\tau} + \bt^{}_{ij}\varepsilon + \bt^{}_{i}\bt^{}_{j}\varepsilon\right)
\\ RHS &=
%
%
(f^{2}\bh^{\blue{}\red{}}_{\blue{}\red{zy}} + f\frac{1}{2!}\bh^{\blue{}\red{}}_{\blue{i}\red{z}}\bt^{\blue{i}\red{}}_{\blue{}\red{y}} + f\bh^{\blue{i}\red{}}_{\blue{}\red{z}}\bt_{\blue{i}\red{y}} + \frac{1}{2!2!}\bh^{\blue{}\red{}}_{\blue{ij}\red{}}\bt^{\blue{i}\red{}}_{\blue{}\red{z}}\bt^{\blue{j}\red{}}_{\blue{}\red{y}} + \bh^{\blue{i}\red{}}_{\blue{j}\red{}}\bt_{\blue{i}\red{z}}\bt^{\blue{j}\red{}}_{\blue{}\red{y}} + \frac{1}{2!2!}\bh^{\blue{ij}\red{}}_{\blue{}\red{}}\bt_{\blue{i}\red{z}}\bt_{\blue{j}\red{y}})
%
%
\\  &+
%
%
(\frac{1}{2!}\bh_0)\bt_{\blue{}\red{z}}\bt_{\blue{}\red{y}}
    \\  &+  % split long equation
(f\bh^{\blue{}\red{}}_{\blue{}\red{y}} + \frac{1}{2!}\bh^{\blue{}\red{}}_{\blue{i}\red{}}\bt^{\blue{i}\red{}}_{\blue{}\red{y}} + f\frac{1}{2!2!}\bh^{\blue{}\red{}}_{\blue{i}\red{y}}\bt^{\blue{i}\red{}} + \frac{1}{2!}\bh^{\blue{i}\red{}}_{\blue{}\red{}}\bt_{\blue{i}\red{y}} + f\frac{1}{2!}\bh^{\blue{i}\red{}}_{\blue{}\red{y}}\bt_{\blue{i}\red{}})\bt_{\blue{}\red{z}}
%
%
\\  &+
%
%
(\bh_0 + \frac{1}{2!}\bh^{\blue{}\red{}}_{\blue{i}\red{}}\bt^{\blue{i}\red{}} + \frac{1}{2!2!}\bh^{\blue{}\red{}}_{\blue{ij}\red{}}\bt^{\blue{ij}\red{}} + \frac{1}{2!}\bh^{\blue{i}\red{}}_{\blue{}\red{}}\bt_{\blue{i}\red{}} + \frac{1}{2!}\bh^{\blue{i}\red{}}_{\blue{j}\red{}}\bt^{\blue{j}\red{}}_{\blue{i}\red{}} + \frac{1}{2!2!}\bh^{\blue{ij}\red{}}_{\blue{}\red{}}\bt_{\blue{ij}\red{}})\bt_{\blue{}\red{zy}}
\end{split}\end{align}

\end{document}"%string.
(* /repo/tests/deep/files/test_latex_full_cc/ground_state_fcc_latex.tex after the header *)
Definition golden_ground : string :=
"%
%
%
%
%

\begin{align}\begin{split}
    \hat{\Omega} = 1
\\ LHS &=
    i\left(\varepsilon\right)
\\ RHS &=
%
%
(\bh_0 + \bh^{\blue{}\red{}}_{\blue{i}\red{}}\bt^{\blue{i}\red{}} + \frac{1}{2!}\bh^{\blue{}\red{}}_{\blue{ij}\red{}}\bt^{\blue{ij}\red{}} + \frac{1}{2!2!}\bh^{\blue{}\red{}}_{\blue{ij}\red{}}\bt^{\blue{i}\red{}}\bt^{\blue{j}\red{}}) + () + ()
\end{split}\end{align}

%
%
%
%
%

\subsection{Linear Equations}

\begin{align}\begin{split}
    \hat{\Omega} = \down{i}
\\ LHS &=
    i\left(\dv{\bt^{i}_{}}{\tau} + \bt^{i}_{}\varepsilon\right)
\\ RHS &=
%
%
(\bar{f}\bh^{\blue{}\red{z}}_{\blue{}\red{}} + \bh^{\blue{}\red{}}_{\blue{i}\red{}}\bt^{\blue{i}\red{z}} + \bar{f}\bh^{\blue{}\red{z}}_{\blue{i}\red{}}\bt^{\blue{i}\red{}} + \frac{1}{2!}\bh^{\blue{}\red{}}_{\blue{ij}\red{}}\bt^{\blue{i}\red{}}\bt^{\blue{j}\red{z}})
%
%
\\  &+
%
%
    \textit{no linked disconnected terms}
%
%
\\  &+
%
%
(\bh_0 + \frac{1}{2!}\bh^{\blue{}\red{}}_{\blue{i}\red{}}\bt^{\blue{i}\red{}} + \frac{1}{2!2!}\bh^{\blue{}\red{}}_{\blue{ij}\red{}}\bt^{\blue{ij}\red{}})\bt^{\blue{}\red{z}}
\end{split}\end{align}

%
%
%
%
%

\begin{align}\begin{split}
    \hat{\Omega} = \up{i}
\\ LHS &=
    i\left(\dv{\bt^{}_{i}}{\tau} + \bt^{}_{i}\varepsilon\right)
\\ RHS &=
%
%
(f\bh^{\blue{}\red{}}_{\blue{}\red{z}} + f\frac{1}{2!}\bh^{\blue{}\red{}}_{\blue{i}\red{z}}\bt^{\blue{i}\red{}})
%
%
\\  &+
%
%
    \textit{no linked disconnected terms}
%
%
\\  &+
%
%
    \textit{no unlinked disconnected terms}
\end{split}\end{align}

%
%
%
%
%

\newpage
\subsection{Quadratic Equations}

\begin{align}\begin{split}
    \hat{\Omega} = \down{i}\down{j}
\\ LHS &=
    i\left(\dv{\bt^{ij}_{}}{\tau} + \dv{\bt^{i}_{}}{\tau}\bt^{j}_{} + \bt^{i}_{}\dv{\bt^{j}_{}}{\tau} + \bt^{ij}_{}\varepsilon + \bt^{i}_{}\bt^{j}_{}\varepsilon\right)
\\ RHS &=
%
%
(\bar{f}^{2}\bh^{\blue{}\red{zy}}_{\blue{}\red{}} + \bar{f}\bh^{\blue{}\red{z}}_{\blue{i}\red{}}\bt^{\blue{i}\red{y}} + \frac{1}{2!2!}\bh^{\blue{}\red{}}_{\blue{ij}\red{}}\bt^{\blue{i}\red{z}}\bt^{\blue{j}\red{y}})
%
%
\\  &+
%
%
(\frac{1}{2!}\bh_0)\bt^{\blue{}\red{z}}\bt^{\blue{}\red{y}}
    \\  &+  % split long equation
(\bar{f}\bh^{\blue{}\red{y}}_{\blue{}\red{}} + \frac{1}{2!}\bh^{\blue{}\red{}}_{\blue{i}\red{}}\bt^{\blue{i}\red{y}} + \bar{f}\frac{1}{2!}\bh^{\blue{}\red{y}}_{\blue{i}\red{}}\bt^{\blue{i}\red{}})\bt^{\blue{}\red{z}}
%
%
\\  &+
%
%
(\bh_0 + \frac{1}{2!}\bh^{\blue{}\red{}}_{\blue{i}\red{}}\bt^{\blue{i}\red{}} + \frac{1}{2!2!}\bh^{\blue{}\red{}}_{\blue{ij}\red{}}\bt^{\blue{ij}\red{}})\bt^{\blue{}\red{zy}}
\end{split}\end{align}

%
%
%
%
%

\begin{align}\begin{split}
    \hat{\Omega} = \up{i}\down{j}
\\ LHS &=
    i\left(\dv{\bt^{i}_{j}}{\tau} + \dv{\bt^{i}_{}}{\tau}\bt^{}_{j} + \bt^{i}_{}\dv{\bt^{}_{j}}{\tau} + \bt^{i}_{j}\varepsilon + \bt^{i}_{}\bt^{}_{j}\varepsilon\right)
\\ RHS &=
%
%
(f\bar{f}\bh^{\blue{}\red{z}}_{\blue{}\red{y}} + f\frac{1}{2!}\bh^{\blue{}\red{}}_{\blue{i}\red{z}}\bt^{\blue{i}\red{y}})
%
%
\\  &+
%
%
(f\bh^{\blue{}\red{}}_{\blue{}\red{y}} + f\frac{1}{2!2!}\bh^{\blue{}\red{}}_{\blue{i}\red{y}}\bt^{\blue{i}\red{}})\bt^{\blue{}\red{z}}
%
%
\\  &+
%
%
    \textit{no unlinked disconnected terms}
\end{split}\end{align}

%
%
%
%
%

\begin{align}\begin{split}
    \hat{\Omega} = \up{i}\up{j}
\\ LHS &=
    i\left(\dv{\bt^{}_{ij}}{\tau} + \dv{\bt^{}_{i}}{\tau}\bt^{}_{j} + \bt^{}_{i}\dv{\bt^{}_{j}}{\tau} + \bt^{}_{ij}\varepsilon + \bt^{}_{i}\bt^{}_{j}\varepsilon\right)
\\ RHS &=
%
%
(f^{2}\bh^{\blue{}\red{}}_{\blue{}\red{zy}})
%
%
\\  &+
%
%
    \textit{no linked disconnected terms}
%
%
\\  &+
%
%
    \textit{no unlinked disconnected terms}
\end{split}\end{align}

\end{document}"%string.
Definition golden_long : string :=
"(
f\bar{f}\bh^{\blue{}\red{z}}_{\blue{}\red{y}} + f\frac{1}{2!}\bh^{\blue{}\red{}}_{\blue{i}\red{z}}\bt^{\blue{i}\red{y}}_{} + \bar{f}\bh^{\blue{}\red{z}}_{\blue{i}\red{}}\bt^{\blue{i}\red{}}_{\blue{}\red{y}} + f\bh^{\blue{i}\red{}}_{\blue{}\red{z}}\bt^{\blue{}\red{y}}_{\blue{i}\red{}} + f\bar{f}\frac{1}{2!}\bh^{\blue{}\red{z}}_{\blue{i}\red{y}}\bt^{\blue{i}\red{}}_{} + \bar{f}\frac{1}{2!}\bh^{\blue{i}\red{z}}_{\blue{}\red{}}\bt^{}_{\blue{i}\red{y}} + f\bar{f}\frac{1}{2!}\bh^{\blue{i}\red{z}}_{\blue{}\red{y}}\bt^{}_{\blue{i}\red{}}
    \\  &+  % split long equation
\frac{1}{2!}\bh^{\blue{}\red{}}_{\blue{ij}\red{}}\bt^{\blue{i}\red{}}_{\blue{}\red{z}}\bt^{\blue{j}\red{y}}_{} + f\frac{1}{3!}\bh^{\blue{}\red{}}_{\blue{ij}\red{z}}\bt^{\blue{i}\red{}}_{}\bt^{\blue{j}\red{y}}_{} + \bh^{\blue{i}\red{}}_{\blue{j}\red{}}\bt^{}_{\blue{i}\red{z}}\bt^{\blue{j}\red{y}}_{} + \bh^{\blue{i}\red{}}_{\blue{j}\red{}}\bt^{\blue{}\red{z}}_{\blue{i}\red{}}\bt^{\blue{j}\red{}}_{\blue{}\red{y}} + f\frac{1}{2!}\bh^{\blue{i}\red{}}_{\blue{j}\red{z}}\bt^{\blue{}\red{y}}_{\blue{i}\red{}}\bt^{\blue{j}\red{}}_{} + \bar{f}\frac{1}{2!}\bh^{\blue{}\red{z}}_{\blue{ij}\red{}}\bt^{\blue{i}\red{}}_{}\bt^{\blue{j}\red{}}_{\blue{}\red{y}} + f\frac{1}{2!}\bh^{\blue{i}\red{}}_{\blue{j}\red{z}}\bt^{}_{\blue{i}\red{}}\bt^{\blue{j}\red{y}}_{}
)"%string.
Definition golden_high : string :=
"(f^{2}\bh^{\blue{}\red{}}_{\blue{}\red{zy}} + f\frac{1}{2!}\bh^{\blue{}\red{}}_{\blue{i}\red{z}}\bt^{\blue{i}\red{}}_{\blue{}\red{y}} + f\bh^{\blue{i}\red{}}_{\blue{}\red{z}}\bt_{\blue{i}\red{y}} + \frac{1}{2!2!}\bh^{\blue{}\red{}}_{\blue{ij}\red{}}\bt^{\blue{i}\red{}}_{\blue{}\red{z}}\bt^{\blue{j}\red{}}_{\blue{}\red{y}} + \bh^{\blue{i}\red{}}_{\blue{j}\red{}}\bt_{\blue{i}\red{z}}\bt^{\blue{j}\red{}}_{\blue{}\red{y}} + \frac{1}{2!2!}\bh^{\blue{ij}\red{}}_{\blue{}\red{}}\bt_{\blue{i}\red{z}}\bt_{\blue{j}\red{y}})
%
%
\\  &+
%
%
(\frac{1}{2!}\bh_0)\bt_{\blue{}\red{z}}\bt_{\blue{}\red{y}}
    \\  &+  % split long equation
(f\bh^{\blue{}\red{}}_{\blue{}\red{y}} + \frac{1}{2!}\bh^{\blue{}\red{}}_{\blue{i}\red{}}\bt^{\blue{i}\red{}}_{\blue{}\red{y}} + f\frac{1}{2!2!}\bh^{\blue{}\red{}}_{\blue{i}\red{y}}\bt^{\blue{i}\red{}} + \frac{1}{2!}\bh^{\blue{i}\red{}}_{\blue{}\red{}}\bt_{\blue{i}\red{y}} + f\frac{1}{2!}\bh^{\blue{i}\red{}}_{\blue{}\red{y}}\bt_{\blue{i}\red{}})\bt_{\blue{}\red{z}}
%
%
\\  &+
%
%
(\bh_0 + \frac{1}{2!}\bh^{\blue{}\red{}}_{\blue{i}\red{}}\bt^{\blue{i}\red{}} + \frac{1}{2!2!}\bh^{\blue{}\red{}}_{\blue{ij}\red{}}\bt^{\blue{ij}\red{}} + \frac{1}{2!}\bh^{\blue{i}\red{}}_{\blue{}\red{}}\bt_{\blue{i}\red{}} + \frac{1}{2!}\bh^{\blue{i}\red{}}_{\blue{j}\red{}}\bt^{\blue{j}\red{}}_{\blue{i}\red{}} + \frac{1}{2!2!}\bh^{\blue{ij}\red{}}_{\blue{}\red{}}\bt_{\blue{ij}\red{}})\bt_{\blue{}\red{zy}}"%string.

Definition long_catch : list term :=
  [(mkco 2 1 1 1 1 [0] [0], mkch 2 1 1 1 1 [0] [0], [mkt 0 0 0 0]); (mkco 2 1 1 1 0 [0] [1], mkch 2 0 2 0 1 [0] [1], [mkt 1 0 1 0]); (mkco 2 1 1 0 1 [1] [0], mkch 2 1 1 1 0 [0] [1], [mkt 1 0 0 1]); (mkco 2 1 1 1 0 [0] [1], mkch 2 1 1 0 1 [1] [0], [mkt 0 1 1 0]); (mkco 2 1 1 1 1 [0] [0], mkch 3 1 2 1 1 [0] [1], [mkt 1 0 0 0]); (mkco 2 1 1 0 1 [1] [0], mkch 2 2 0 1 0 [1] [0], [mkt 0 1 0 1]); (mkco 2 1 1 1 1 [0] [0], mkch 3 2 1 1 1 [1] [0], [mkt 0 1 0 0]); (mkco 2 1 1 0 0 [1; 0] [0; 1], mkch 2 0 2 0 0 [0; 0] [1; 1], [mkt 1 0 0 1; mkt 1 0 1 0]); (mkco 2 1 1 1 0 [0; 0] [0; 1], mkch 3 0 3 0 1 [0; 0] [1; 1], [mkt 1 0 0 0; mkt 1 0 1 0]); (mkco 2 1 1 0 0 [1; 0] [0; 1], mkch 2 1 1 0 0 [1; 0] [0; 1], [mkt 0 1 0 1; mkt 1 0 1 0]); (mkco 2 1 1 0 0 [0; 1] [1; 0], mkch 2 1 1 0 0 [1; 0] [0; 1], [mkt 0 1 1 0; mkt 1 0 0 1]); (mkco 2 1 1 1 0 [0; 0] [1; 0], mkch 3 1 2 0 1 [1; 0] [0; 1], [mkt 0 1 1 0; mkt 1 0 0 0]); (mkco 2 1 1 0 1 [0; 1] [0; 0], mkch 3 1 2 1 0 [0; 0] [1; 1], [mkt 1 0 0 0; mkt 1 0 0 1]); (mkco 2 1 1 1 0 [0; 0] [0; 1], mkch 3 1 2 0 1 [1; 0] [0; 1], [mkt 0 1 0 0; mkt 1 0 1 0]); (mkco 2 1 1 0 0 [1; 0] [0; 1], mkch 2 2 0 0 0 [1; 1] [0; 0], [mkt 0 1 0 1; mkt 0 1 1 0]); (mkco 2 1 1 0 1 [1; 0] [0; 0], mkch 3 2 1 1 0 [1; 0] [0; 1], [mkt 0 1 0 1; mkt 1 0 0 0]); (mkco 2 1 1 0 1 [0; 1] [0; 0], mkch 3 2 1 1 0 [1; 0] [0; 1], [mkt 0 1 0 0; mkt 1 0 0 1]); (mkco 2 1 1 1 0 [0; 0] [0; 1], mkch 3 2 1 0 1 [1; 1] [0; 0], [mkt 0 1 0 0; mkt 0 1 1 0]); (mkco 2 1 1 0 1 [0; 1] [0; 0], mkch 3 3 0 1 0 [1; 1] [0; 0], [mkt 0 1 0 0; mkt 0 1 0 1])].
Definition high_fully : list term :=
  [(mkco 2 2 0 2 0 [0] [0], mkch 2 0 2 0 2 [0] [0], [mkt 0 0 0 0]); (mkco 2 2 0 1 0 [1] [0], mkch 2 0 2 0 1 [0] [1], [mkt 1 0 0 1]); (mkco 2 2 0 1 0 [1] [0], mkch 2 1 1 0 1 [1] [0], [mkt 0 1 0 1]); (mkco 2 2 0 0 0 [1; 1] [0; 0], mkch 2 0 2 0 0 [0; 0] [1; 1], [mkt 1 0 0 1; mkt 1 0 0 1]); (mkco 2 2 0 0 0 [1; 1] [0; 0], mkch 2 1 1 0 0 [1; 0] [0; 1], [mkt 0 1 0 1; mkt 1 0 0 1]); (mkco 2 2 0 0 0 [1; 1] [0; 0], mkch 2 2 0 0 0 [1; 1] [0; 0], [mkt 0 1 0 1; mkt 0 1 0 1])].
Definition high_linked : list term :=
  [(mkco 2 2 0 1 0 [1] [0], mkch 1 0 1 0 1 [0] [0], [mkt 0 0 0 1]); (mkco 2 2 0 0 0 [1; 1] [0; 0], mkch 0 0 0 0 0 [0; 0] [0; 0], [mkt 0 0 0 1; mkt 0 0 0 1]); (mkco 2 2 0 0 0 [1; 1] [0; 0], mkch 1 0 1 0 0 [0; 0] [0; 1], [mkt 0 0 0 1; mkt 1 0 0 1]); (mkco 2 2 0 1 0 [1; 0] [0; 0], mkch 2 0 2 0 1 [0; 0] [0; 1], [mkt 0 0 0 1; mkt 1 0 0 0]); (mkco 2 2 0 0 0 [1; 1] [0; 0], mkch 1 1 0 0 0 [0; 1] [0; 0], [mkt 0 0 0 1; mkt 0 1 0 1]); (mkco 2 2 0 1 0 [1; 0] [0; 0], mkch 2 1 1 0 1 [0; 1] [0; 0], [mkt 0 0 0 1; mkt 0 1 0 0])].
Definition high_unlinked : list term :=
  [(mkco 2 2 0 0 0 [2] [0], mkch 0 0 0 0 0 [0] [0], [mkt 0 0 0 2]); (mkco 2 2 0 0 0 [2; 0] [0; 0], mkch 1 0 1 0 0 [0; 0] [0; 1], [mkt 0 0 0 2; mkt 1 0 0 0]); (mkco 2 2 0 0 0 [2; 0] [0; 0], mkch 2 0 2 0 0 [0; 0] [0; 2], [mkt 0 0 0 2; mkt 2 0 0 0]); (mkco 2 2 0 0 0 [2; 0] [0; 0], mkch 1 1 0 0 0 [0; 1] [0; 0], [mkt 0 0 0 2; mkt 0 1 0 0]); (mkco 2 2 0 0 0 [2; 0] [0; 0], mkch 2 1 1 0 0 [0; 1] [0; 1], [mkt 0 0 0 2; mkt 1 1 0 0]); (mkco 2 2 0 0 0 [2; 0] [0; 0], mkch 2 2 0 0 0 [0; 2] [0; 0], [mkt 0 0 0 2; mkt 0 2 0 0])].

Definition ida {A} (l : list A) := l.
Definition so_recorded (l : list (list tamp)) : list (list tamp) :=
  let a := [mkt 0 1 1 0; mkt 1 0 0 1] in
  let b := [mkt 0 1 0 1; mkt 1 0 1 0] in
  if existsb (tamps_eqb a) l && existsb (tamps_eqb b) l
  then map (fun x => if tamps_eqb a x then b else if tamps_eqb b x then a else x) l
  else l.

Example golden_latex_excited :
  same_text (generate_full_cc_latex so_recorded ida ida 2 2 2 2 false false) golden_excited = true.
Proof. vm_compute. reflexivity. Qed.
Example golden_latex_ground :
  same_text (generate_full_cc_latex ida ida ida 2 2 2 2 true false) golden_ground = true.
Proof. vm_compute. reflexivity. Qed.
Example golden_latex_long :
  render_lsum "" (make_latex_plain ida long_catch) = golden_long.
Proof. vm_compute. reflexivity. Qed.
Example golden_latex_high :
  same_text (do e <- write_cc_latex_from_lists ida ida 2 high_fully high_linked high_unlinked;
             Ok (render_equation 2 e)) golden_high = true.
Proof. vm_compute. reflexivity. Qed.
(* test_latex_full_cc.py 1020-1045 *)
Example golden_latex_linked :
  (do s <- make_latex_linked ida ida
     [(mkco 2 0 2 0 1 [0] [1], mkch 1 1 0 1 0 [0] [0], [mkt 0 0 2 0])]; Ok (render_lsum "" s))
  = Ok "(\bar{f}\bh^{\blue{}\red{x}}_{\blue{}\red{}})\bt^{\blue{}\red{zy}}_{}"%string.
Proof. vm_compute. reflexivity. Qed.
