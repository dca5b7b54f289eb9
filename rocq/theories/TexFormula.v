(** fitfunctions/*.py: the formulas the fit functions report ([TeX_function]), line by line. *)
From Coq Require Import String.
From Verif Require Import Py PyStr TexInfo.
Open Scope string_scope.

(** fitfunctions/gaussians.py 46-49 *)
Definition tex_Gaussian : string :=
  "f(x)=A \cdot e^{-\frac{1}{2} \left(\frac{x-\mu}{\sigma}\right)^2}".
(** fitfunctions/gaussians.py 101-104 *)
Definition tex_GaussianNormalized : string :=
  "f(x)=\frac{n}{\sqrt{2 \pi} \sigma} e^{-\frac{1}{2} \left(\frac{x-\mu}{\sigma}\right)^2}".
(** fitfunctions/gaussians.py 170-184 *)
Definition tex_GaussianLn : string :=
  "f(x) =A \cdot\exp\left[\frac{\left(\ln x - m\right)^2}{2 s^2}\right]".
(** fitfunctions/moyal.py 65-75 *)
Definition tex_Moyal : string :=
  "f(x) = A \cdot \exp\left[\frac{1}{2}\left(\left(\frac{x-\mu}{\sigma}\right)^2 - \exp\left(\left(\frac{x-\mu}{\sigma}\right)^2\right)\right)\right]".
(** fitfunctions/lines.py 62-64 *)
Definition tex_Line : string :=
  "f(x)=m \cdot x + b".
(** fitfunctions/lines.py 135-137 *)
Definition tex_LineXintercept : string :=
  "f(x)=m \cdot (x - x_0)".
(** fitfunctions/power_laws.py 51-53 *)
Definition tex_PowerLaw : string :=
  "f(x)=A x^b".
(** fitfunctions/power_laws.py 103-105 *)
Definition tex_PowerLawPlusC : string :=
  "f(x)=A x^b + c".
(** fitfunctions/power_laws.py 146-148 *)
Definition tex_PowerLawOffCenter : string :=
  "f(x)=A (x-x_0)^b".
(** fitfunctions/exponentials.py 42-44 *)
Definition tex_Exponential : string :=
  "f(x)=A \cdot e^{-cx}".
(** fitfunctions/exponentials.py 74-76 *)
Definition tex_ExponentialPlusC : string :=
  "f(x)=A \cdot e^{-cx} + d".
(** fitfunctions/exponentials.py 113-115 *)
Definition tex_ExponentialCDF : string :=
  "f(x)=A \left(1 - e^{-cx}\right)".
(** fitfunctions/heaviside.py 169-184 *)
Definition tex_HeavySide : string :=
  "f(x) = y_1 \cdot H(x_0 - x) + y_0" ++ nl ++
  "x < x_0: f(x) = y_0 + y_1" ++ nl ++
  "x > x_0: f(x) = y_0".
(** fitfunctions/composite.py 183-197 *)
Definition tex_GaussianPlusHeavySide : string :=
  "f(x)=A \cdot e^{-\frac{1}{2} (\frac{x-\mu}{\sigma})^2} +" ++ nl ++
  "\left(y_1 \cdot H(x_0 - x) + y_0\right)".
(** fitfunctions/composite.py 355-366 *)
Definition tex_GaussianTimesHeavySide : string :=
  "f(x)=A \cdot e^{-\frac{1}{2} (\frac{x-\mu}{\sigma})^2} \times H(x - x_0)".
(** fitfunctions/composite.py 545-559 *)
Definition tex_GaussianTimesHeavySidePlusHeavySide : string :=
  "f(x)=A \cdot e^{-\frac{1}{2} (\frac{x-\mu}{\sigma})^2} \times H(x - x_0) + " ++ nl ++
  "y_1 \cdot H(x_0 - x)".
(** fitfunctions/hinge.py 180-196 *)
Definition tex_HingeSaturation : string :=
  "f(x)=\min(y_1, \, y_2)" ++ nl ++
  "y_i = m_i(x-x_i)" ++ nl ++
  "m_1 = \frac{y_h}{x_h - x_1}" ++ nl ++
  "x_2 = x_h - \frac{y_h}{m_2}".
(** fitfunctions/hinge.py 408-422 *)
Definition tex_TwoLine : string :=
  "f(x) \, =\min\left(y_1, \, y_2\right)" ++ nl ++
  "y_i = m_i(x - x_i)".
(** fitfunctions/hinge.py 647-664 *)
Definition tex_Saturation : string :=
  "f \, \left(x, x_1, x_s, s, \theta\right)=\min\left(y_1, \, y_2\right)" ++ nl ++
  "y_i = m_i(x - x_i)" ++ nl ++
  "x_s = \frac{m_2 x_2 - m_1 x_1}{m_2 - m_1}" ++ nl ++
  "s = m_i (x_s - x_i)" ++ nl ++
  "\theta = \arctan\left(\frac{m_1 - m_2}{1 + m_1 m_2}\right)".
(** fitfunctions/hinge.py 865-879 *)
Definition tex_HingeMin : string :=
  "f(x)=\min(m_1(x-x_1), \, m_2(x-x_2))" ++ nl ++
  "m_2 = m_1 \frac{h - x_1}{h - x_2}".
(** fitfunctions/hinge.py 1083-1097 *)
Definition tex_HingeMax : string :=
  "f(x)=\max(m_1(x-x_1), \, m_2(x-x_2))" ++ nl ++
  "m_2 = m_1 \frac{h - x_1}{h - x_2}".
(** fitfunctions/hinge.py 1282-1297 *)
Definition tex_HingeAtPoint : string :=
  "f(x)=\min(y_1, \, y_2)" ++ nl ++
  "y_i = m_i(x-x_i)" ++ nl ++
  "x_i = x_h - \frac{y_h}{m_i}".
