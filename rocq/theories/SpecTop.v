(** The upper end of the support of the generalised Pareto law with shape xi, location l and scale s:
    +inf for xi >= 0 and l - s/xi for xi < 0; as an extended real and as an mpmath value. *)
From Coq Require Import Reals.
From Coquelicot Require Import Coquelicot.
From Verif Require Import Values.
Local Open Scope R_scope.
Definition gp_top (xi l s : R) : Rbar := if Rle_dec 0 xi then p_infty else Finite (l - s / xi).
Definition gp_top_v (xi l s : R) : val := if Rle_dec 0 xi then PInf else Fin (l - s / xi).
(** The ends of the support of the generalised extreme value law: the point l - s/xi is the lower
    end for xi > 0 and the upper end for xi < 0; the other ends are infinite. *)
Definition gev_lo (xi l s : R) : Rbar := if Rlt_dec 0 xi then Finite (l - s / xi) else m_infty.
Definition gev_hi (xi l s : R) : Rbar := if Rlt_dec xi 0 then Finite (l - s / xi) else p_infty.
Definition gev_lo_v (xi l s : R) : val := if Rlt_dec 0 xi then Fin (l - s / xi) else NInf.
Definition gev_hi_v (xi l s : R) : val := if Rlt_dec xi 0 then Fin (l - s / xi) else PInf.
