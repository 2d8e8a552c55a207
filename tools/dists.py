# One entry per certified distribution; see mkthm.py.
dist('uniform', 'a b', ['a < b'], 'a', 'b', ['1', '3'], mode=False, ends=('a', 'b'),
  extra=r'''
(** C43: mean, var, noncentral_moment, median and entropy are the integrals they stand for. *)
Theorem C43_uniform : forall a b : R, a < b ->
  (exists m, @M.mean a b = Fin m /\ is_RInt (fun t => t * toR (@M.pdf t a b)) a b m) /\
  (exists v m, @M.var a b = Fin v /\ @M.mean a b = Fin m /\
     is_RInt (fun t => (t - m)^2 * toR (@M.pdf t a b)) a b v) /\
  (forall n, exists m, @M.noncentral_moment n a b = Fin m /\
     is_RInt (fun t => t ^ n * toR (@M.pdf t a b)) a b m) /\
  (exists m, @M.median a b = Fin m /\ @M.cdf m a b = Fin (1/2)) /\
  (exists h, @M.entropy a b = Fin h /\
     is_RInt (fun t => - (toR (@M.pdf t a b) * ln (toR (@M.pdf t a b)))) a b h).
Proof.
  exact (fun a b H => conj (@P.mean_ok a b H) (conj (@P.var_ok a b H) (conj (@P.moment_ok a b H)
           (conj (@P.median_ok a b H) (@P.entropy_ok a b H))))).
Qed.
Print Assumptions C43_uniform.
Example C43_uniform_instance : (-1) < 3. Proof. lra. Qed.

(** C38: b <= a is rejected by every function, whatever the other argument. *)
Theorem C38_uniform : forall a b : val, isnum a -> isnum b -> ext_le b a ->
  @M.support a b = Err ValueError /\
  always_ValueError [ fun x => @M.pdf x a b; fun x => @M.logpdf x a b; fun x => @M.cdf x a b;
    fun x => @M.sf x a b; fun p => @M.invcdf p a b; fun p => @M.invsf p a b;
    fun _ => @M.mean a b; fun _ => @M.median a b; fun _ => @M.var a b; fun _ => @M.entropy a b ].
Proof. exact @P.bad_params. Qed.
Print Assumptions C38_uniform.
Example C38_uniform_instance : isnum 2 /\ isnum 1 /\ ext_le (Fin 1) (Fin 2).
Proof. repeat constructor; lra. Qed.
''')

dist('benini', 'al be s', ['0 < al', '0 < be', '0 < s'], 's', 'p_infty', ['1', '2', '3'],
  extra=r'''
(** C37: p outside [0,1] is rejected and the lower end is reached ... *)
Theorem C37_benini_partial : forall al be s : R, 0 < al -> 0 < be -> 0 < s ->
  rejects_bad_p (fun p => @M.invcdf p al be s) /\ rejects_bad_p (fun p => @M.invsf p al be s) /\
  @M.invcdf (Fin 0) al be s = Fin s /\ @M.invsf (Fin 1) al be s = Fin s.
Proof.
  exact (fun al be s H0 H1 H2 => conj (proj1 (@P.rejects al be s H0 H1 H2))
    (conj (proj2 (@P.rejects al be s H0 H1 H2)) (@P.ends_lo al be s H0 H1 H2))).
Qed.
Print Assumptions C37_benini_partial.
Example C37_benini_partial_instance : 0 < 1 /\ 0 < 2 /\ 0 < 3. Proof. lra. Qed.
(** ... but invcdf(1) and invsf(0) are nan for all parameters, not the upper end +inf. *)
Theorem C37_benini_refuted : forall al be s : R, 0 < al -> 0 < be -> 0 < s ->
  @M.invcdf (Fin 1) al be s = NaN /\ @M.invsf (Fin 0) al be s = NaN.
Proof. exact @P.ends_hi. Qed.
Print Assumptions C37_benini_refuted.
Example C37_benini_refuted_instance : @M.invcdf (Fin 1) (Fin 1) (Fin 2) (Fin 3) = NaN.
Proof. apply C37_benini_refuted; lra. Qed.

Theorem C38_benini : forall al be s : val, isnum al -> isnum be -> isnum s ->
  nonpositive al \/ nonpositive be \/ nonpositive s ->
  @M.support al be s = Err ValueError /\
  always_ValueError [ fun x => @M.pdf x al be s; fun x => @M.logpdf x al be s; fun x => @M.cdf x al be s;
    fun x => @M.sf x al be s; fun x => @M.logcdf x al be s; fun x => @M.logsf x al be s;
    fun p => @M.invcdf p al be s; fun p => @M.invsf p al be s;
    fun _ => @M.median al be s; fun _ => @M.mode al be s ].
Proof. exact @P.bad_params. Qed.
Print Assumptions C38_benini.
Example C38_benini_instance : isnum 2 /\ nonpositive (Fin (-1)).
Proof. repeat constructor; lra. Qed.
''', thms=[
  ('C34', 'log_cdf_sf', 'logcdf and logsf are the logarithms of cdf and sf.', '4', '_cdf'),
  ('C43', 'median_ok', 'the median halves the distribution.', '', '_median'),
])

GUM = [
  ('C38', 'bad_params', 'a scale that is not positive is rejected by every function.', '(Fin 1) (Fin 0) (Fin (-1)) !'),
  ('C44', 'loc_scale', 'location and scale.', '1 2 !'),
  ('C47', 'mle_loc_opt', 'for a given scale the returned location minimises nll over all locations, whatever the root finder does for the other cases.',
     '(fun _ => NaN) (fun _ _ => NaN) [1; 2; 5] 3 !', '_loc_partial'),
  ('C48', 'mom_ok', 'mom reproduces the sample mean and variance, whatever number is used for the Euler constant.', '(1/2) [1; 2; 5] !'),
  ('C49', 'nll_ok', 'nll is minus the sum of logpdf.', '[1; 2; 5]'),
]
dist('laplace', 'l s', ['0 < s'], 'm_infty', 'p_infty', ['1', '2'], log='cert', thms=[
  ('C37', 'ends_ok', 'the ends of [0,1] go to the ends of the support ...', '', '_partial'),
  ('C37', 'bad_p', '... but p outside [0,1] is not rejected with ValueError: the result is not a real number.', '2 !', '_refuted'),
  ('C38', 'bad_params', 'a scale that is not positive is rejected by every function.', '(Fin 1) (Fin 0) !'),
  ('C44', 'loc_scale', 'location and scale.', '1 2 !'),
  ('C46', 'interval', 'interval_prob is the difference of the cdf.', '1 2 !'),
  ('C46', 'interval_bad', 'a reversed interval is rejected.', '2 1 !', '_reversed'),
  ('C47', 'mle_both', 'both parameters free.', '[1; 2; 5] !', '_both'),
  ('C47', 'mle_loc', 'location given.', '[1; 2; 5] 3 !', '_loc_given'),
  ('C47', 'mle_scale', 'scale given.', '[1; 2; 5] 3 ! !', '_scale_given'),
  ('C47', 'mle_bad', 'a given scale that is not positive is rejected.', '[1; 2; 5] (Fin 0) ! !', '_bad_scale'),
  ('C43', 'moments', 'mean and var are the integrals they stand for.', '1 2 !'),
  ('C48', 'mom_ok', 'mom reproduces the sample mean and variance.', '[1; 2; 5] !'),
])
dist('logistic', 'l s', ['0 < s'], 'm_infty', 'p_infty', ['1', '2'], log='cert', ends=('NInf', 'PInf'), thms=[
  ('C38', 'bad_params', 'a scale that is not positive is rejected by every function.', '(Fin 1) (Fin 0) !'),
  ('C44', 'loc_scale', 'location and scale.', '1 2 !'),
  ('C43', 'moments', 'mean and entropy are the integrals they stand for.', '1 2 !'),
  ('C43', 'var_ok', 'variance.', '= 1 2 !', '_var'),
  ('C48', 'mom_ok', 'mom reproduces the sample mean and variance.', '[1; 2; 5] !'),
  ('C49', 'nll_ok', 'nll is minus the sum of logpdf.', '[1; 2; 5]'),
])
dist('half_logistic', 'l s', ['0 < s'], 'l', 'p_infty', ['1', '2'], ends=('l', 'PInf'), imports='\nFrom Verif Require M_logistic.', thms=[
  ('C38', 'bad_params', 'a scale that is not positive is rejected by every function.', '(Fin 1) (Fin 0) !'),
  ('C44', 'loc_scale', 'location and scale.', '1 2 !'),
  ('C43', 'moments', 'mean and entropy are the integrals they stand for.', '1 2 !'),
  ('C43', 'var_ok', 'variance.', '= 1 2 !', '_var'),
  ('C45', 'folded', 'the half-logistic is the logistic folded at its location.', '3 !'),
])
dist('gumbel_max', 'l s', ['0 < s'], 'm_infty', 'p_infty', ['1', '2'], log='cert', ends=('NInf', 'PInf'), imports='\nFrom Verif Require SFun EulerLib.\nFrom Verif Require Import SpecEuler.', thms=GUM + [
  ('C43', 'mean_ok', 'mean; g is the Euler-Mascheroni constant.', '@: exists g, euler_constant g /\\ mean_is (fun x => pdf x 1 2) m_infty p_infty (mean g 1 2).\nProof. exists (- SFun.digamma 1). assert (G := EulerLib.euler_digamma). split; auto. apply C43_gumbel_max_mean; auto; lra. Qed.', '_mean'),
  ('C43', 'var_ok', 'variance; g is the Euler-Mascheroni constant.', '@: exists g, euler_constant g /\\ var_is (fun x => pdf x 1 2) m_infty p_infty (mean g 1 2) (var 1 2).\nProof. exists (- SFun.digamma 1). assert (G := EulerLib.euler_digamma). split; auto. apply C43_gumbel_max_var; auto; lra. Qed.', '_var'),
])
dist('gumbel_min', 'l s', ['0 < s'], 'm_infty', 'p_infty', ['1', '2'], log='cert', ends=('NInf', 'PInf'),
  imports='\nFrom Verif Require M_gumbel_max SFun EulerLib.\nFrom Verif Require Import SpecEuler.', thms=GUM + [
  ('C43', 'mean_ok', 'mean; g is the Euler-Mascheroni constant.', '@: exists g, euler_constant g /\\ mean_is (fun x => pdf x 1 2) m_infty p_infty (mean g 1 2).\nProof. exists (- SFun.digamma 1). assert (G := EulerLib.euler_digamma). split; auto. apply C43_gumbel_min_mean; auto; lra. Qed.', '_mean'),
  ('C43', 'var_ok', 'variance; g is the Euler-Mascheroni constant.', '@: exists g, euler_constant g /\\ var_is (fun x => pdf x 1 2) m_infty p_infty (mean g 1 2) (var 1 2).\nProof. exists (- SFun.digamma 1). assert (G := EulerLib.euler_digamma). split; auto. apply C43_gumbel_min_var; auto; lra. Qed.', '_var'),
  ('C45', 'refl', 'gumbel_min is the reflection of gumbel_max.', '3', ''),
  ('C45', 'refl_inv', 'its quantiles are the reflected quantiles of gumbel_max.', '(1/3) !', '_quantile'),
])
WEI = [
  ('C38', 'bad_params', 'a shape or scale that is not positive is rejected by every function.', '(fun v => v) (Fin 0) (Fin 1) (Fin 0) (Fin (-1)) ! ! !'),
  ('C39', 'mode_ok', 'the mode maximises the density, which may be infinite there.'),
  ('C44', 'loc_scale', 'location and scale.', '1 ! 1 2 !'),
]
dist('weibull_min', 'k l s', ['0 < k', '0 < s'], 'l', 'p_infty', ['3', '1', '2'], mode=False, ends=('l', 'PInf'), imports='\nFrom Verif Require SFun EulerLib.\nFrom Verif Require Import M_sfun SpecEuler.', thms=WEI + [
  ('C43', 'mean_ok', 'mean (vgamma is mp.gamma).', '', '_mean'),
  ('C43', 'var_ok', 'variance.', '', '_var'),
  ('C43', 'skew_ok', 'skewness.', '', '_skewness'),
  ('C43', 'kurt_ok', 'excess kurtosis.', '', '_kurtosis'),
  ('C43', 'moment_ok', 'raw moments of every order.', '3%nat', '_moments'),
  ('C43', 'ent_ok', 'entropy; g is the Euler-Mascheroni constant.', '@: exists g, euler_constant g /\\ entropy_is (fun x => pdf x 3 1 2) 1 p_infty (entropy g 3 1 2).\nProof. exists (- SFun.digamma 1). assert (G := EulerLib.euler_digamma). split; auto. apply C43_weibull_min_entropy; auto; lra. Qed.', '_entropy'),
  ('C47', 'mle_scale_opt', 'shape and location given: the scale minimises nll.', '(fun _ => NaN) (fun _ _ => NaN) [1; 2; 5] 3 0 ! ! !', '_scale_partial'),
  ('C49', 'nll_ok', 'nll is minus the sum of logpdf.', '[2; 4; 5] !'),
  ('C49', 'nll_bad', 'data outside the support is rejected.', '[2; 1; 5] !', '_outside'),
])
dist('weibull_max', 'k l s', ['0 < k', '0 < s'], 'm_infty', 'l', ['3', '1', '2'], mode=False, ends=('NInf', 'l'),
  imports='\nFrom Verif Require M_weibull_min SFun EulerLib.\nFrom Verif Require Import M_sfun SpecEuler.', thms=WEI + [
  ('C43', 'mean_ok', 'mean (vgamma is mp.gamma).', '', '_mean'),
  ('C43', 'var_ok', 'variance.', '', '_var'),
  ('C43', 'skew_ok', 'skewness.', '', '_skewness'),
  ('C43', 'kurt_ok', 'excess kurtosis.', '', '_kurtosis'),
  ('C43', 'moment_ok', 'raw moments of every order.', '3%nat', '_moments'),
  ('C43', 'ent_ok', 'entropy; g is the Euler-Mascheroni constant.', '@: exists g, euler_constant g /\\ entropy_is (fun x => pdf x 3 1 2) m_infty 1 (entropy g 3 1 2).\nProof. exists (- SFun.digamma 1). assert (G := EulerLib.euler_digamma). split; auto. apply C43_weibull_max_entropy; auto; lra. Qed.', '_entropy'),
  ('C45', 'refl_pdf', 'the reflection of weibull_min: densities.', '(-1)', ''),
  ('C45', 'refl_cdf', 'distribution functions.', '(Fin (-1)) !', '_cdf'),
  ('C45', 'refl_inv', 'quantiles.', '(1/3) !', '_quantile'),
  ('C45', 'refl_mode', 'mode.', '', '_mode'),
  ('C45', 'refl_mean', 'mean and variance, for any numbers taken as the values of the gamma function.', '(fun v => v) 3 1 2 ! ! ltac:(intros x _; exists x; reflexivity)', '_mean'),
  ('C47', 'mle_scale_opt', 'shape and location given: the scale minimises nll.', '(fun _ => NaN) (fun _ _ => NaN) [1; 2; 5] 3 6 ! ! !', '_scale_partial'),
  ('C49', 'nll_ok', 'nll is minus the sum of logpdf.', '[-2; 0] !'),
  ('C49', 'nll_bad', 'data outside the support is rejected.', '[-2; 1; 0] !', '_outside'),
])
SCALE_BAD = 'a shape or scale that is not positive is rejected by every function.'
dist('burr12', 'c d s', ['0 < c', '0 < d', '0 < s'], '0', 'p_infty', ['3', '1', '2'], mode=False, imports='\nFrom Verif Require Import M_sfun.', thms=[
  ('C34', 'log_cdf_sf', 'logcdf and logsf are the logarithms of cdf and sf.', '4', '_cdf'),
  ('C37', 'rejects', 'p outside [0,1] is rejected and the lower end of [0,1] goes to the lower end of the support ...', '', '_partial'),
  ('C37', 'ends_hi', '... but for d = 2, 1, 2/3, 1/2, ... the upper end raises ZeroDivisionError instead of giving +inf.', '!', '_refuted'),
  ('C38', 'bad_params', SCALE_BAD, '(fun u v => v) (Fin 0) (Fin 1) (Fin 1) ! ! ! !'),
  ('C39', 'mode_ok', 'for c > 1 the mode maximises the density.', '!', '_partial'),
  ('C39', 'mode_low', 'for c <= 1 the density decreases on the whole support, and the mode returned is its left end although pdf is 0 at that very point.', '= 1 1 2 ! ! ! !', '_low'),
  ('C43', 'median_ok', 'the median halves the distribution.', '', '_median'),
  ('C43', 'mean_ok', 'for c d > 1 the mean is that of the density ...', '!', '_mean'),
  ('C43', 'mean_nan', '... and it is nan otherwise.', '= 1 1 2 ! ! ! vbeta !', '_mean_nan'),
  ('C43', 'var_ok', 'for c d > 2 the variance is that of the density ...', '= 3 1 2 ! ! ! !', '_var'),
  ('C43', 'var_nan', '... and it is nan otherwise.', '= 1 1 2 vbeta ! ! ! !', '_var_nan'),
  ('C44', 'scale_ok', 'scale.', '1 2 ! !'),
  ('C47', 'mle_d_opt', 'c and scale given: the returned d minimises nll.', '[1; 2; 5] 3 2 ! ! ! !', '_partial'),
  ('C49', 'nll_ok', 'nll is minus the sum of logpdf.', '[1; 2; 5] !'),
  ('C49', 'nll_bad', 'data outside the support is rejected.', '[1; 0; 5] !', '_outside'),
])
dist('loglogistic', 'b s', ['0 < b', '0 < s'], '0', 'p_infty', ['3', '2'], mode=False, ends=('(Fin 0)', 'PInf'), imports='\nFrom Verif Require M_burr12.', thms=[
  ('C38', 'bad_params', SCALE_BAD, '(fun v => v) (fun v => v) (Fin 0) (Fin 1) ! ! !'),
  ('C43', 'mean_ok', 'mean for beta > 1.', '!', '_mean'),
  ('C43', 'var_ok', 'variance for beta > 2.', '!', '_var'),
  ('C43', 'moment_ok', 'every raw moment of order n < beta ...', '2%nat ltac:(simpl; lra)', '_moments'),
  ('C43', 'moment_nan', '... and nan is returned where the moment does not exist.', 'vsincpi vsinc 5%nat', '_nan'),
  ('C44', 'scale_ok', 'scale.', '1 !'),
  ('C45', 'as_burr', 'the log-logistic law is the Burr XII law with d = 1.', '4'),
  ('C45', 'as_burr_inv', 'quantiles.', '(1/3) !', '_quantile'),
])
dist('kumaraswamy', 'a b', ['0 < a', '0 < b'], '0', '1', ['3', '2'], mode=False, ends=('(Fin 0)', '(Fin 1)'), log='none', imports='\nFrom Verif Require SFun EulerLib.\nFrom Verif Require Import M_sfun SpecEuler.', thms=[
  ('C34', 'log_in', 'logpdf is the logarithm of pdf, except at an end of the support where the shape is 1 ...', '0 ! !', '_partial'),
  ('C34', 'log_end0', '... where logpdf is nan although pdf is positive: lower end.', '2 !', '_refuted'),
  ('C34', 'log_end1', 'upper end.', '2 !', '_refuted_upper'),
  ('C38', 'bad_params', 'a shape that is not positive is rejected by every function but support.', '(fun u v => v) (fun v => v) NaN (Fin 0) (Fin 1) ! ! !', '_partial'),
  ('C39', 'mode_ok', 'the mode maximises the density, which may be infinite there.'),
  ('C43', 'median_ok', 'the median halves the distribution.', '', '_median'),
  ('C43', 'mean_ok', 'mean.', '', '_mean'),
  ('C43', 'var_ok', 'variance.', '', '_var'),
  ('C43', 'moment_ok', 'every non-central moment.', '5%nat', '_moments'),
  ('C43', 'skew_ok', 'skewness.', '', '_skewness'),
  ('C43', 'entropy_ok', 'entropy; g is the Euler-Mascheroni constant.', '@: exists g, euler_constant g /\\ entropy_is (fun x => pdf x 3 2) 0 1 (entropy vdigamma (Fin g) 3 2).\nProof. exists (- SFun.digamma 1). assert (G := EulerLib.euler_digamma). split; auto. apply C43_kumaraswamy_entropy; auto; lra. Qed.', '_entropy'),
  ('C47', 'mle_b_opt', 'a given: the returned b minimises nll.', '[1/2; 1/3] 3 ! ! !', '_partial'),
  ('C49', 'nll_ok', 'nll is minus the sum of logpdf.', '[1/2; 1/3] !'),
  ('C49', 'nll_bad', 'data outside the open support is rejected.', '[1/2; 1] !', '_outside'),
])
dist('pareto', 'b l s', ['0 < b', '0 < s'], '(l + s)', 'p_infty', ['4', '1', '2'], mode=False, thms=[
  ('C37', 'ends_part', 'p outside [0,1] is rejected and the lower end of [0,1] goes to the lower end of the support ...', '', '_partial'),
  ('C37', 'ends_hi', '... but invcdf(1) raises ValueError instead of giving +inf ...', '', '_refuted'),
  ('C37', 'ends_hi2', '... and for b = 2, 1, 2/3, ... invsf(0) raises ZeroDivisionError.', '2 1 2 ! ! !', '_refuted_sf'),
  ('C38', 'bad_params', SCALE_BAD, '(Fin 0) (Fin 1) (Fin 1) ! ! !'),
  ('C43', 'mean_ok', 'mean.', '!', '_mean'),
  ('C43', 'var_ok', 'variance.', '!', '_var'),
  ('C43', 'entropy_ok', 'entropy.', '', '_entropy'),
  ('C44', 'loc_scale', 'location and scale.', '1 !'),
  ('C47', 'mle_loc_given', 'location given: the pair (b, scale) minimises nll.', '(fun _ _ => NaN) (NaN, NaN) [1; 2; 5] 0 ! !', '_loc_given'),
  ('C47', 'mle_scale_given', 'scale given: the pair (b, loc) minimises nll.', '(fun _ _ => NaN) (NaN, NaN) [1; 2; 5] 2 ! !', '_scale_given'),
  ('C47', 'mle_scale_only', 'b and location given.', '(fun _ _ => NaN) (NaN, NaN) [1; 2; 5] 2 0 ! ! !', '_scale_only'),
  ('C47', 'mle_loc_only', 'b and scale given.', '(fun _ _ => NaN) (NaN, NaN) [1; 2; 5] 2 3 ! ! !', '_loc_only'),
  ('C47', 'mle_loc_lost', 'location and scale given: the given location 0 is not kept, the result has location 1.', '(fun _ _ => NaN) (NaN, NaN)', '_refuted'),
  ('C49', 'nll_ok', 'nll is minus the sum of logpdf.', '[3; 4; 7] !'),
  ('C49', 'nll_bad', 'data outside the support is rejected.', '[4; 1; 7] !', '_outside'),
])
LSBAD = 'a scale that is not positive is rejected by every function.'
dist('normal', 'l s', ['0 < s'], 'm_infty', 'p_infty', ['1', '2'], log='cert', ends=('NInf', 'PInf'), thms=[
  ('C38', 'bad_params', LSBAD, '(Fin 1) (Fin 0) !'),
  ('C43', 'moments', 'mean, median and entropy.', '1 2 !'),
  ('C43', 'variance', 'mu and sigma^2 are the mean and variance of the density.', '1 2 !', '_var'),
  ('C44', 'loc_scale', 'location and scale.', '1 2 !'),
  ('C47', 'mle_ok', 'the maximum likelihood estimate, for data that is not constant.', '[1; 2; 5] !'),
  ('C49', 'nll_ok', 'nll is minus the sum of logpdf.', '[1; 2; 5]'),
  ('C67', 'nll_default_bad', 'without explicit parameters nll uses mu = 1 and logpdf uses mu = 0: they disagree on the data [0].', '', '_refuted'),
])
dist('lognormal', 'l s', ['0 < s'], '0', 'p_infty', ['1', '2'], ends=('(Fin 0)', 'PInf'), skip=('C30', 'C36'),
  imports='\nFrom Verif Require M_normal.', thms=[
  ('C30', 'compl_pos', 'cdf and sf are complementary on the support; see C66 for x <= 0.', '3 !', '_partial'),
  ('C36', 'inv_sf', 'invsf inverts sf.', ''),
  ('C38', 'bad_params', LSBAD, '(Fin 1) (Fin 0) !'),
  ('C43', 'mean_ok', 'mean.', '', '_mean'),
  ('C43', 'var_ok', 'variance.', '', '_var'),
  ('C43', 'skew_ok', 'skewness.', '', '_skewness'),
  ('C43', 'kurt_ok', 'excess kurtosis.', '', '_kurtosis'),
  ('C43', 'moment_ok', 'every non-central moment.', '3', '_moments'),
  ('C43', 'entropy_ok', 'entropy.', '', '_entropy'),
  ('C45', 'as_normal', 'the logarithm of a lognormal variable is normal.', '1 2 3 !'),
  ('C47', 'mle_ok', 'the maximum likelihood estimate, for positive data that is not constant.', '[1; 2; 5] ! !'),
  ('C48', 'mom_ok', 'mom reproduces the sample mean and variance.', '[1; 2; 5] ! !'),
  ('C49', 'nll_ok', 'nll is minus the sum of logpdf.', '[1; 2; 5] !'),
  ('C49', 'nll_bad', 'data outside the support is rejected.', '[1; 0; 5] !', '_outside'),
  ('C49', 'mle_bad', 'data outside the support is rejected by the estimators.', '[1; 0; 5] !', '_estimators'),
  ('C66', 'sf_bad', 'sf raises AttributeError for every x <= 0, where cdf is 0.', '(-1) !', '_refuted'),
])
dist('levy', 'l s', ['0 < s'], 'l', 'p_infty', ['1', '2'], mode=False, skip=('C31',), thms=[
  ('C31', 'cdf_laws', 'cdf is non-decreasing and supported on [mu, inf); see C57 for support().', '', '_partial'),
  ('C37', 'ends_part', 'p outside [0,1] is rejected and the lower end of [0,1] goes to the lower end of the support ...', '', '_partial'),
  ('C37', 'ends_hi', '... but the upper end raises ZeroDivisionError instead of giving +inf.', '', '_refuted'),
  ('C38', 'bad_params', LSBAD, '(Fin 1) (Fin 0) !', '_partial'),
  ('C44', 'loc_scale', 'location and scale.', '1 2 !'),
  ('C57', 'support_ok', 'given a superfluous first argument in [0,1], support returns (mu, inf) ...', '(1/2) !', '_partial'),
  ('C57', 'support_bad', '... but called with the parameters it raises ValueError or returns the wrong end.', '', '_refuted'),
])

NW = 'for 0 < p < 1 the iterates of invcdf (and of invsf, for 1 - p) stay inside the support, move monotonically to the quantile after the first step, and the loop stops with a value within the tolerance.'
NI = '\nFrom Coq Require Import ZArith.\nFrom Verif Require Import SpecNewton SpecLS.'
ENDS = 'p outside [0,1] is rejected; 0 and 1 go to the ends of the support.'
dist('invgamma', 'a l s', ['0 < a', '0 < s'], 'l', 'p_infty', ['2', '1', '3'], skip=('C35', 'C36'), imports=NI, thms=[
  ('C26', 'newton_ok', NW, '(1/3) 53%Z !'),
  ('C37', 'ends', ENDS, '53%Z 100%nat'),
  ('C38', 'bad_params', 'invalid shape or scale is rejected.', '53%Z 100%nat (Fin 1) (Fin 0) (Fin 0) ! ! !'),
  ('C43', 'mean_ok', 'mean.', '!', '_mean'),
  ('C43', 'var_ok', 'variance.', '@: var_is (fun x => M_invgamma.pdf x 5 1 3) 1 p_infty (M_invgamma.mean 5 1 3) (M_invgamma.var 5 1 3).\nProof. apply C43_invgamma_var; lra. Qed.', '_var'),
  ('C43', 'skew_ok', 'skewness.', '@: skewness_is (fun x => M_invgamma.pdf x 5 1 3) 1 p_infty (M_invgamma.skewness 5 1 3).\nProof. apply C43_invgamma_skewness; lra. Qed.', '_skewness'),
  ('C43', 'kurt_ok', 'excess kurtosis.', '@: kurtosis_is (fun x => M_invgamma.pdf x 5 1 3) 1 p_infty (M_invgamma.kurtosis 5 1 3).\nProof. apply C43_invgamma_kurtosis; lra. Qed.', '_kurtosis'),
  ('C43', 'moment_ok', 'every non-central moment that exists.', '1%nat !', '_moments'),
  ('C43', 'moments_nan', 'nan where the moment does not exist.', '', '_nan'),
  ('C43', 'entropy_ok', 'entropy.', '', '_entropy'),
  ('C44', 'loc_scale', 'location and scale.', '=(2) !'),
])
dist('invgauss', 'm l s', ['0 < m', '0 < s'], 'l', 'p_infty', ['2', '1', '3'], skip=('C30', 'C31', 'C35', 'C36'), imports=NI, thms=[
  ('C26', 'newton_ok', NW, '(1/3) 53%Z !'),
  ('C30', 'compl', 'cdf and sf are complementary at every real number ...', '5', '_partial'),
  ('C30', 'inf_nan', '... but both are nan at +inf, for all parameters.', '', '_refuted'),
  ('C31', 'cdf_laws', 'cdf is non-decreasing on the reals, 0 up to loc, and tends to 1; see C30 for the value at +inf.', '', '_partial'),
  ('C34', 'log_cdf_sf', 'logcdf and logsf.', '5', '_tails'),
  ('C37', 'ends', ENDS, '53%Z 100%nat'),
  ('C38', 'bad_params', 'invalid shape or scale is rejected.', '53%Z 100%nat (Fin 1) (Fin 0) (Fin 0) ! ! !'),
  ('C43', 'median_ok', 'median is invcdf(1/2).', '53%Z 100%nat', '_median'),
  ('C43', 'mean_ok', 'mean.', '', '_mean'),
  ('C43', 'var_ok', 'variance.', '', '_var'),
  ('C43', 'moment_ok', 'every non-central moment.', '4%nat', '_moments'),
  ('C44', 'loc_scale', 'location and scale.', '=(2) !'),
])

DI = '\nFrom Verif Require Import SpecDisc SpecInt SpecMulti.'
CNT = 'counts repeat the observations, and bad counts raise ValueError.'
DBAD = 'invalid parameters raise ValueError (the other arguments are numbers).'
def disc(name, binders, hyps, ex, thms, imports=''):
    dist(name, ' '.join(re.findall(r'\((\w+) :', binders)), hyps, '', '', ex, cert=False, binders=binders, imports=DI + imports, thms=thms)
disc('poisson', '(lam : R)', ['0 < lam'], ['5/2'], [
  ('C40', 'mode_small', 'the mode is the smallest maximiser.', ''),
  ('C41', 'mass_ok', 'the probabilities are non-negative, sum to 1 over the support, and vanish outside.', ''),
  ('C42', 'cdf_ok', 'cdf and sf are partial sums, for every integer k.', '3%Z'),
  ('C34', 'log_ok', 'logpmf is the logarithm of pmf at every integer.', ''),
  ('C38', 'bad_lam', DBAD, '(Fin 0) !', '_partial'),
  ('C43', 'moments_ok', 'mean, variance, skewness and excess kurtosis.', ''),
  ('C47', 'mle_opt', 'mle minimises nll, with or without counts.', '[1;0;3]%nat (Some [2;0;5]%nat) eq_refl !', '_partial'),
  ('C49', 'nll_laws', CNT, '=(5/2) [1;0;3]%nat [2;0;5]%nat !'),
])

disc('binomial', '(n : nat) (p : R)', ['0 <= p <= 1'], ['5%nat', '(1/3)'], [
  ('C40', 'mode_small', 'the mode is the smallest maximiser.', ''),
  ('C41', 'mass_ok', 'the probabilities are non-negative, sum to 1 over the support, and vanish outside when 0 < p < 1.', '', '_partial'),
  ('C41', 'pmf_outside_raises', 'outside the support pmf raises ZeroDivisionError for p = 0 and p = 1.', '=5%nat 2%nat', '_refuted'),
  ('C42', 'cdf_ok', 'the default method: cdf on the support, sf below n (elsewhere the code calls betainc with a non-positive parameter).', '3%Z !', '_partial'),
  ('C42', 'sumpmf_ok', 'the method "sumpmf".', '3%Z ! !', '_sumpmf'),
  ('C62', 'log_ok', 'logpmf is the logarithm of pmf for 0 < p < 1.', '!', '_partial'),
  ('C62', 'logpmf_nan', 'at p = 0 and p = 1 logpmf is nan at the point of probability 1.', '=5%nat', '_refuted'),
  ('C38', 'bad_params', DBAD, '(Fin 3) (Fin 2) ! !', '_partial'),
  ('C43', 'moments_ok', 'mean and variance.', ''),
  ('C47', 'mle_n', 'mle with n given minimises nll over p, with or without counts.', '=[1;0;3]%nat (Some [2;0;5]%nat) 4%nat eq_refl ! !', '_partial'),
  ('C49', 'nll_laws', CNT, '=5%nat (1/3) [1;0;3]%nat [2;0;5]%nat ! !'),
  ('C68', 'mle_p', 'mle with p given minimises nll over n when there are no counts, or p is below the threshold the code computes.  [findroot] is any solver that returns a root or raises.', '@:= C68_binomial_partial (fun _ _ => Exc RuntimeError) [1;1]%nat None (3/4) (Fin 1) (Fin (3/4)) ltac:(lra) ltac:(reflexivity) ltac:(discriminate) (fun f x0 => or_introl (ex_intro _ RuntimeError eq_refl)) (or_introl eq_refl) P_binomial.mle_p_case.', '_partial'),
  ('C68', 'mle_counts_wrong', 'the threshold ignores counts: for x = [0, 1], counts = [0, 1], p = 9/20 the code returns n = 1 although n = 2 has smaller nll.', '=(fun f x => x)', '_refuted'),
])

disc('hypergeometric', '(N K n : nat)', ['(K <= N)%nat', '(n <= N)%nat'], ['20%nat', '7%nat', '12%nat'], [
  ('C40', 'mode_small', 'the mode is the smallest maximiser.', ''),
  ('C41', 'mass_ok', 'the support, the probabilities (non-negative, sum 1, zero at every other integer), and their closed form.', ''),
  ('C34', 'log_ok', 'logpmf is the logarithm of pmf on the support.', '', '_partial'),
  ('C42', 'cdf_ok', 'cdf and sf from one below the support upwards.', '3%Z !', '_partial'),
  ('C42', 'sf_low', 'further below the support both raise ZeroDivisionError (a pole of the hypergeometric series).', '(-2)%Z !', '_refuted'),
  ('C43', 'moments_ok', 'mean and variance for populations of at least two.', '!', '_partial'),
  ('C63', 'var_div', 'var raises ZeroDivisionError for every valid parameter with ntotal <= 1.', '=1%nat 1%nat 0%nat ! ! !', '_refuted'),
  ('C38', 'bad_params', DBAD, '=(5) (6) (3) (Fin 2) !'),
])

disc('negative_hypergeometric', '(N K r : nat)', ['(K + r <= N)%nat'], ['20%nat', '7%nat', '4%nat'], [
  ('C40', 'mode_small', 'the mode is the smallest maximiser (with untilnbad = 0 the support is {0}), except where the code divides by zero.', '!', '_partial'),
  ('C60', 'mode_small', 'mode returns a maximiser for all valid parameters except ntotal = ngood + 1, untilnbad = 1, ngood >= 1.', '!', '_partial'),
  ('C60', 'mode_div', 'for those parameters mode raises ZeroDivisionError.', '=3%nat !', '_refuted'),
  ('C41', 'mass_ok', 'the support and the probabilities: non-negative, sum 1, zero at every other integer.', ''),
  ('C34', 'log_ok', 'logpmf is the logarithm of pmf at every integer when untilnbad >= 1.', '!', '_partial'),
  ('C34', 'logpmf_zero', 'with untilnbad = 0, logpmf raises ValueError at 0, where pmf is 1.', '=5%nat 3%nat !', '_refuted'),
  ('C42', 'cdf_ok', 'cdf and sf at every integer.', '3%Z'),
  ('C43', 'moments_ok', 'mean and variance.', ''),
  ('C38', 'bad_params', DBAD, '=(5) (6) (3) (Fin 2) !'),
])

disc('negative_binomial', '(r p : R)', ['1 <= r', '0 <= p < 1'], ['(5/2)', '(1/4)'], [
  ('C40', 'mode_small', 'the mode is the smallest maximiser (r = 1, or p > 0).', 'ltac:(right; lra)', '_partial'),
  ('C59', 'mode_nonneg', 'mode is a non-negative integer for every r > 0 and 0 < p < 1.', '=(5/2) (1/4) ! !', '_partial'),
  ('C59', 'mode_neg', 'for r > 1, mode is -1 at p = 0 and raises ZeroDivisionError at p = 1; both parameters pass validation.', '=2 !', '_refuted'),
  ('C41', 'mass_ok', 'the support and the probabilities (non-negative, sum 1, zero at every other integer) for r >= 1, p < 1.', '', '_partial'),
  ('C41', 'small_r', 'for 0 < r < 1 pmf and logpmf raise ValueError at every point of the support, while cdf is a probability strictly between 0 and 1.', '=(1/2) (1/4) 3%nat ! !', '_refuted'),
  ('C41', 'at_one', 'p = 1 passes validation: all probabilities are zero, mean and var raise ZeroDivisionError.', '=2 3%nat !', '_one_refuted'),
  ('C34', 'log_ok', 'logpmf is the logarithm of pmf at every integer for r >= 1, p < 1 (p = 0 included).', '', '_partial'),
  ('C42', 'cdf_ok', 'cdf and sf at every integer.', '3%Z', '_partial'),
  ('C43', 'moments_ok', 'mean and variance.', '', '_partial'),
  ('C38', 'bad_params', DBAD, '=(-1) (1/4) (Fin 2) ltac:(left; lra)', '_partial'),
  ('C38', 'support_any', 'support accepts every parameter.', '=(Fin (-1)) NaN', '_refuted'),
  ('C49', 'nll_laws', CNT, '=(5/2) (1/4) [1;0;3]%nat [2;0;5]%nat ! !'),
  ('C47', 'mle_r_opt', 'mle with r given minimises nll over p, with or without counts.', '=[1;0;3]%nat (Some [2;0;5]%nat) (5/2) true ! (or_introl eq_refl) eq_refl !', '_r_given'),
  ('C47', 'mle_p_opt', 'mle with p given: if the solver returns a root not below 1 it minimises nll over r >= 1.  [findroot] is any solver that returns a root or raises.', '@:= C47_negative_binomial_p_given_partial P_negative_binomial.check_root [1%nat] None (1 - exp (- (1 / 2))) (Fin 2) (Fin 2) _ (proj1 (P_negative_binomial.check_p true)) eq_refl ltac:(discriminate) P_negative_binomial.check_root_ok (proj2 (P_negative_binomial.check_p true)).', '_p_given_partial'),
  ('C47', 'mle_p_int', 'mle with p given and integer r required minimises nll over the positive integers.', '@:= C47_negative_binomial_p_given_integer P_negative_binomial.check_root [1%nat] None (1 - exp (- (1 / 2))) (Fin 2) (Fin 2) _ (proj1 (P_negative_binomial.check_p false)) eq_refl ltac:(discriminate) P_negative_binomial.check_root_ok (proj2 (P_negative_binomial.check_p false)).', '_p_given_integer'),
  ('C47', 'mle_free_coord', 'mle with neither given: the pair is optimal in each coordinate separately (joint optimality is not proved).', '@: exists r p, 1 <= r /\\ mle_free P_negative_binomial.check_root (vNs [1; 5]%nat) (vcounts None) (Fin r) true = Ok (Fin r, Fin p) := P_negative_binomial.free_case.', '_free_partial'),
])

disc('multivariate_hypergeometric', '(cs : list nat) (n : nat)', ['cs <> []', '(n <= list_sum cs)%nat'], ['[2;0;3;1]%nat', '4%nat'], [
  ('C51', 'support_ok', 'for every non-empty list of colours and 0 <= nsample <= sum(colors), support yields exactly the possible outcomes, in increasing lexicographic order (so each once).', '=[2;0;3;1]%nat 4%nat ! !', '_partial'),
  ('C51', 'support_negative', 'a negative nsample is accepted: with one colour the vector with that negative entry is yielded.', '=3%nat (-2)%Z !', '_refuted'),
  ('C51', 'support_empty', 'with no colours the generator raises IndexError instead of yielding the empty vector.', '=', '_empty_refuted'),
  ('C52', 'mass_ok', 'pmf is positive on the support and sums to 1; logpmf is its logarithm.', '', '_pmf'),
  ('C52', 'mean_ok', 'mean is the vector of expectations and sums to nsample.', '', '_mean'),
  ('C52', 'cov_ok', 'cov is the matrix of covariances, is symmetric, and each row sums to 0 (sum(colors) >= 2, or everything drawn).', '!', '_cov'),
  ('C63', 'cov_ok', 'cov returns for sum(colors) >= 2, and whenever nsample = sum(colors).', '!', '_partial'),
  ('C63', 'cov_div', 'cov raises ZeroDivisionError for nsample = 0 and any colours with sum 1.', '=[0;1;0]%nat !', '_refuted'),
  ('C43', 'entropy_ok', 'entropy.', '', '_entropy'),
  ('C41', 'pmf_outside', 'pmf does not check the total of the point: at (1, 1), which is no outcome of drawing one item from (2, 2), it is 1.', '=', '_refuted'),
  ('C38', 'bad_params', 'a negative colour count, or nsample > sum(colors), raises ValueError.', '=[2;-1] 1 !', '_partial'),
])

disc('fnch', '(N K n : nat) (t : R)', ['(K <= N)%nat', '(n <= N)%nat', '0 < t'], ['20%nat', '7%nat', '12%nat', '2'], [
  ('C40', 'mode_ok', 'the mode is the largest maximiser.', ''),
  ('C41', 'mass_ok', 'the support and the probabilities: non-negative, sum 1, zero at every other integer.', ''),
  ('C41', 'pmf_formula', 'the probabilities are those of the documentation.', '5%nat !', '_formula'),
  ('C41', 'spmf_ok', 'support_pmf returns the support and the values of pmf on it.', '', '_support_pmf'),
  ('C42', 'cdf_ok', 'cdf and sf at every integer.', '3%Z'),
  ('C43', 'mean_ok', 'mean.', ''),
  ('C38', 'bad_params', DBAD, '=(Fin 2) (5) (6) (3) (Fin 2) !'),
])

SI = '\nFrom Verif Require Import SpecInv.'
INV = 'solved numerically; the bracket and the root finder are specified in SpecInv.'
NLLD = 'nll is minus the sum of logpdf.'
OUTS = 'data outside the support is rejected.'
dist('gamma', 'k s', ['0 < k', '0 < s'], '0', 'p_infty', ['2', '3'], skip=('C35', 'C36'), log='inner', mode=False, imports=SI, thms=[
  ('C35', 'invcdf_ok', INV),
  ('C36', 'invsf_ok', INV),
  ('C37', 'ends', ENDS, '(fun _ _ => NaN) 100%nat'),
  ('C38', 'bad_params', 'invalid shape or scale is rejected.', '(fun _ _ => NaN) 100%nat (Fin 0) (Fin 1) ! ! !'),
  ('C39', 'mode_ok', 'the mode, when the density is bounded.', '!'),
  ('C39', 'mode_small', 'for k <= 1 the density decreases on the support and mode is its lower end.', '@: forall x y : R, 0 < x -> x <= y -> toR (pdf y (1/2)%R 3) <= toR (pdf x (1/2)%R 3).\nProof. refine (proj2 (C39_gamma_small (1/2) 3 _ _ _)); lra. Qed.', '_small'),
  ('C43', 'mean_ok', 'mean.', '', '_mean'),
  ('C43', 'var_ok', 'variance.', '', '_var'),
  ('C43', 'skew_ok', 'skewness.', '', '_skewness'),
  ('C43', 'kurt_ok', 'excess kurtosis.', '', '_kurtosis'),
  ('C43', 'moment_ok', 'every non-central moment.', '5%nat', '_moments'),
  ('C43', 'entropy_ok', 'entropy.', '', '_entropy'),
  ('C46', 'interval_ok', 'intervals inside the support ...', '2 3 1 4 ! ! !', '_partial'),
  ('C46', 'interval_inf', '... also unbounded ones ...', '2 3 1 ! ! !', '_tail_partial'),
  ('C46', 'interval_neg', '... but a negative x1 is not replaced by 0: the result exceeds 1.', '', '_refuted'),
  ('C47', 'c47_scale', 'k given: the scale minimises nll.', '(Fin 1) (fun _ _ => NaN) [1; 2; 5] 3 ! ! !', '_scale'),
  ('C47', 'c47_k', 'scale given: k minimises nll.', '@: exists fr k, checked_solver fr /\\ 0 < k /\\ mle (Fin 1) fr (map Fin [1; 1]) None (Some (Fin 1)) = Ok (Fin k, Fin 1).\nProof. exact P_gamma.mle_k_case. Qed.', '_shape'),
  ('C47', 'c47_both', 'both free: the Newton step has exactly one fixed point k, (k, mean/k) is the global minimum, and the scale returned is mean/k.  Missing: the ten steps taken reach the fixed point.', '[1; 2; 5] ! !', '_both_partial'),
  ('C48', 'mom_ok', 'mom reproduces the sample mean and variance.', '[1; 2; 5] ! !'),
  ('C49', 'nll_ok', NLLD, '2 3 [1; 2; 5] ! ! !'),
  ('C49', 'nll_bad', OUTS, '2 3 [1; -2; 5] ! ! !', '_outside'),
  ('C50', 'c50_grad', 'nll_grad is the gradient.', '[1; 2; 5] 2 3 ! ! !', '_grad'),
  ('C50', 'c50_hess', 'nll_hess is the Hessian.', '[1; 2; 5] 2 3 ! ! !', '_hess'),
  ('C50', 'c50_invhess', 'nll_invhess is the inverse of nll_hess unless that is singular, which it is not where k*scale is the sample mean.', '[1; 2; 5] 2 3 ! !', '_invhess'),
  ('C65', 'log_end', 'k > 1: logpdf(0) = log pdf(0).', '!', '_partial'),
  ('C65', 'log_one', 'k = 1: pdf(0) = 1/scale but logpdf(0) is nan.', '@: pdf 0 1 3 = Fin (/ 3) /\\ logpdf 0 1 3 = NaN.\nProof. apply (C65_gamma_refuted 1 3); lra. Qed.', '_refuted'),
])
EMODE = 'the density decreases on the support and mode is its lower end.'
dist('chi2', 'k', ['0 < k'], '0', 'p_infty', ['3'], skip=('C35', 'C36'), log='inner', mode=False, imports=SI + '\nFrom Verif Require M_gamma.', thms=[
  ('C35', 'invcdf_ok', INV),
  ('C36', 'invsf_ok', INV),
  ('C38', 'bad_params', 'invalid degrees of freedom are rejected.', '(fun _ _ => NaN) 100%nat (Fin 0) ! !'),
  ('C39', 'mode_ok', 'the mode, when the density is bounded.', '!'),
  ('C39', 'mode_small', 'for k <= 2 ' + EMODE, '@: forall x y : R, 0 < x -> x <= y -> toR (pdf y 1) <= toR (pdf x 1).\nProof. refine (proj2 (C39_chi2_small 1 _ _)); lra. Qed.', '_small'),
  ('C43', 'mean_ok', 'mean.', '', '_mean'),
  ('C43', 'var_ok', 'variance.', '', '_var'),
  ('C43', 'moment_ok', 'every non-central moment.', '5%nat', '_moments'),
  ('C43', 'entropy_ok', 'entropy.', '', '_entropy'),
  ('C45', 'is_gamma', 'chi2 with k degrees of freedom is gamma with shape k/2 and scale 2.', ''),
  ('C65', 'log_end', 'k > 2: logpdf(0) = log pdf(0).', '!', '_partial'),
  ('C65', 'log_two', 'k = 2: pdf(0) = 1/2 but logpdf(0) is nan.', '@: pdf 0 2 = Fin (1 / 2) /\\ logpdf 0 2 = NaN.\nProof. apply (C65_chi2_refuted 2); lra. Qed.', '_refuted'),
  ('C72', 'inv_k_sound', 'any k returned is the only solution.  Missing: that there is a solution, and that it is returned.', '@: exists fr p, checked_solver fr /\\ invcdf_k fr 1 (Fin 1) (Fin p) = Fin 1.\nProof. exact P_chi2.inv_k_case. Qed.', '_partial'),
])
dist('chi', 'k', ['0 < k'], '0', 'p_infty', ['3'], skip=('C35', 'C36'), log='inner', mode=False, imports='\nFrom Verif Require M_chi2.', thms=[
  ('C38', 'bad_params', 'invalid degrees of freedom are rejected.', '(Fin 0) ! !'),
  ('C39', 'mode_ok', 'the mode, when the density is bounded.', '!'),
  ('C39', 'mode_small', 'for k <= 1 ' + EMODE, '@: forall x y : R, 0 < x -> x <= y -> toR (pdf y (1/2)%R) <= toR (pdf x (1/2)%R).\nProof. refine (proj2 (C39_chi_small (1/2) _ _)); lra. Qed.', '_small'),
  ('C43', 'mean_ok', 'mean.', '', '_mean'),
  ('C43', 'var_ok', 'variance.', '', '_var'),
  ('C43', 'moment_ok', 'every non-central moment.', '5%nat', '_moments'),
  ('C43', 'entropy_ok', 'entropy.', '', '_entropy'),
  ('C45', 'is_chi2', 'the square of a chi variable is chi2.', '2 !'),
  ('C65', 'log_end', 'k > 1: logpdf(0) = log pdf(0).', '!', '_partial'),
  ('C65', 'log_one', 'k = 1: the density at 0 is sqrt(2/pi) but both functions return nan.', '@: pdf 0 1 = NaN /\\ logpdf 0 1 = NaN.\nProof. apply (C65_chi_refuted 1); lra. Qed.', '_refuted'),
])
dist('maxwell', 'l s', ['0 < s'], 'l', 'p_infty', ['1', '2'], skip=('C35', 'C36'), imports=SI + '\nFrom Verif Require Import SpecLS SpecEuler.\nFrom Verif Require M_chi.', thms=[
  ('C35', 'invcdf_ok', 'for loc >= 0: ' + INV, '(fun _ _ => NaN) ! ltac:(intros f x r; discriminate)'),
  ('C36', 'invsf_ok', 'for loc >= 0, when the second attempt is not made or fails: ' + INV, 'ValueError !', '_partial'),
  ('C36', 'invsf_wrong', 'the second attempt solves cdf(x) = p: with it invsf(1/4) returns a number where sf is 3/4.', '', '_refuted'),
  ('C37', 'at_ends_ok', 'invalid p is rejected; the values at p = 0 and p = 1 are 0 and +inf whatever loc is.', '(fun _ _ => NaN) (fun _ _ => NaN) 100%nat', '_partial'),
  ('C38', 'bad_params', 'invalid scale is rejected.', '(fun _ _ => NaN) (fun _ _ => NaN) 100%nat (Fin 1) (Fin 0) (Fin 0) ! !'),
  ('C43', 'mean_ok', 'mean.', '', '_mean'),
  ('C43', 'var_ok', 'variance.', '', '_var'),
  ('C43', 'entropy_ok', "entropy, with Euler's constant.", '@ : exists g, euler_constant g.\nProof. exact (ex_intro _ _ EulerLib.euler_digamma). Qed.', '_entropy'),
  ('C44', 'loc_scale', 'location and scale.', '1 2 !'),
  ('C45', 'is_chi', 'the standardised variable is chi with 3 degrees of freedom.', '2 !'),
  ('C64', 'ends_wrong', 'invcdf(0) and invsf(1) are not the lower end of the support unless loc = 0.', '(fun _ _ => NaN) (fun _ _ => NaN) 100%nat !', '_refuted'),
  ('C64', 'invcdf_sound', 'whatever loc is, a number returned by invcdf inverts cdf.', '@: exists se ne fuel x, checked_solver se /\\ checked_solver1 ne /\\ (forall g y e, se g y <> Exc e) /\\ invcdf se ne fuel (1 / 4)%R 1 2 = Fin x.\nProof. exact P_maxwell.inv_case. Qed.', '_cdf_partial'),
  ('C64', 'invsf_sound', 'the same for invsf when the first attempt returns.', '@: exists se ne fuel x, checked_solver se /\\ checked_solver1 ne /\\ (forall g y e, se g y <> Exc e) /\\ invcdf se ne fuel (1 / 4)%R 1 2 = Fin x.\nProof. exact P_maxwell.inv_case. Qed.', '_sf_partial'),
])
dist('nakagami', 'nu l s', ['0 < nu', '0 < s'], 'l', 'p_infty', ['2', '1', '2'], skip=('C35', 'C36'), mode=False, imports=SI + '\nFrom Verif Require Import SpecLS.\nFrom Verif Require M_chi.', thms=[
  ('C35', 'invcdf_ok', 'for loc >= 0: ' + INV, '!'),
  ('C36', 'invsf_ok', 'for loc >= 0: ' + INV, '!'),
  ('C38', 'bad_params', 'invalid nu or scale is rejected.', '(fun _ _ => NaN) 100%nat (Fin 1) (Fin 1) (Fin 0) ! ! !'),
  ('C39', 'mode_ok', 'the mode, when nu > 1/2.', '!'),
  ('C39', 'mode_half', 'for nu = 1/2 ' + EMODE, '@: forall x y : R, 1 < x -> x <= y -> toR (pdf y (1/2)%R 1 2) <= toR (pdf x (1/2)%R 1 2).\nProof. refine (proj2 (C39_nakagami_half (1/2) 1 2 _ _ _)); lra. Qed.', '_half'),
  ('C39', 'mode_small', 'for nu < 1/2 mode is not a real number.', '@: mode (1/4)%R 1 2 = Exc NonReal.\nProof. apply C39_nakagami_refuted; lra. Qed.', '_refuted'),
  ('C43', 'mean_ok', 'mean.', '', '_mean'),
  ('C43', 'var_ok', 'variance.', '', '_var'),
  ('C43', 'entropy_ok', 'entropy.', '', '_entropy'),
  ('C44', 'loc_scale', 'location and scale.', '2 ! 1 2 !'),
  ('C45', 'is_chi', 'the standardised variable times sqrt(2 nu) is chi with 2 nu degrees of freedom.', '2 !'),
  ('C47', 'c47_scale', 'nu and loc given: the scale minimises nll.', '(fun _ _ => NaN) [1; 2; 5] 0 2 ! ! !', '_scale'),
  ('C47', 'c47_nu', 'loc and scale given: nu minimises nll.', '@: exists fr nu, checked_solver1 fr /\\ mle fr (map Fin [1; 2]) None (Some (Fin 0)) (Some (Fin 1)) = Ok (Fin nu, Fin 0, Fin 1).\nProof. exact P_nakagami.c47_nu_case. Qed.', '_nu'),
  ('C47', 'c47_both', 'loc given: (nu, scale) minimises nll.', '@: exists fr nu s, checked_solver1 fr /\\ mle fr (map Fin [1; 2]) None (Some (Fin 0)) None = Ok (Fin nu, Fin 0, Fin s).\nProof. exact P_nakagami.c47_both_case. Qed.', '_both'),
  ('C49', 'c49_ok', NLLD, '[1; 2; 5] 2 0 3 ! ! !'),
  ('C49', 'c49_bad', OUTS, '[1; -2; 5] 2 0 3 ! ! !', '_outside'),
  ('C64', 'inv_sound', 'whatever loc is, a number returned by invcdf or invsf solves the equation.', '@: checked_solver (fun g _ => match g (Fin 0) with Fin r => if Reqb r 0 then Fin 0 else NaN | _ => NaN end).\nProof. intros g x0 x1 r. destruct (g (Fin 0)) as [u| | | |] eqn:E; try discriminate. destruct (Reqb_spec u 0) as [[L ->]|[L ->]]; [|discriminate]. intros H. injection H as <-. rewrite E, L. auto. Qed.', '_partial'),
  ('C73', 'c73_grad', 'nll_grad is the gradient.', '[1; 2; 5] 2 0 3 ! ! !'),
])
SB = 'a parameter that must be positive and is not is rejected by every function.'
dist('gompertz', 'c s', ['0 < c', '0 < s'], '0', 'p_infty', ['3', '2'], ends=('(Fin 0)', 'PInf'), imports=SI, thms=[
  ('C34', 'at_inf', 'at the infinities the density is 0, its logarithm -inf, and cdf and sf are 0 or 1.', '', '_inf'),
  ('C38', 'bad_params', SB, '(Fin 0) (Fin 1) ! ! !'),
  ('C43', 'mean_ok', 'mean.', '', '_mean'),
  ('C43', 'entropy_ok', 'entropy.', '', '_entropy'),
  ('C44', 'scale_ok', 'scale.', '1 !'),
  ('C47', 'mle_c', 'scale given: the shape minimises nll.', '(fun _ _ => NaN) (Fin 1) [1; 2; 5] 3 ! ! ltac:(exists 1; split; [left; reflexivity|lra])', '_shape'),
  ('C47', 'mle_scale', 'shape given: a positive scale returned minimises nll.', '@: exists fr c, checked_solver1 fr /\\ 0 < c /\\ mle fr (Fin 1) (map Fin [1]) (Some (Fin c)) None = Ok (Fin c, Fin 1).\nProof. exact P_gompertz.case_scale. Qed.', '_scale'),
  ('C47', 'mle_both', 'both free: the pair returned minimises nll if its scale is positive.', '@: exists fr c s, checked_solver1 fr /\\ 0 < s /\\ mle fr (Fin 1) (map Fin [1; 2]) None None = Ok (Fin c, Fin s).\nProof. exact P_gompertz.case_both. Qed.', '_both'),
  ('C47', 'mle_zero', 'data consisting of zeros is accepted but leads to ZeroDivisionError.', '(fun _ _ => NaN) (Fin 1) 3 !', '_refuted'),
  ('C49', 'nll_ok', NLLD, '[1; 2; 5] !'),
  ('C49', 'nll_bad', OUTS, '[1; -2; 5] !', '_outside'),
])
dist('gamma_gompertz', 'c b s', ['0 < c', '0 < b', '0 < s'], '0', 'p_infty', ['1', '3', '2'], thms=[
  ('C37', 'ends_ok', 'p outside [0,1] is rejected and the ends are right, except perhaps for invsf(0) ...', '', '_partial'),
  ('C37', 'ends_hi', '... which raises ZeroDivisionError for c = 2, 1, 2/3, 1/2, ... .', 'ltac:(exists 2%positive; lra)', '_refuted'),
  ('C38', 'bad_params', SB, '(fun _ _ _ _ => NaN) (Fin 0) (Fin 1) (Fin 1) ! ! ! !'),
  ('C43', 'mean_ok', 'mean for beta = 1 or c = 1 (the two cases that do not use hyp2f1).', '(fun _ _ _ _ => NaN) !', '_mean_partial'),
  ('C44', 'scale_ok', 'scale.', '1 2 ! !'),
])
dist('exponweib', 'a c s', ['0 < a', '0 < c', '0 < s'], '0', 'p_infty', ['1', '3', '2'], log='inner', mode=False, ends=('(Fin 0)', 'PInf'), imports='\nFrom Verif Require M_weibull_min.', thms=[
  ('C38', 'bad_params', SB, '(Fin 0) (Fin 1) (Fin 1) ! ! ! !'),
  ('C44', 'scale_ok', 'scale.', '1 2 ! !'),
  ('C45', 'is_weibull', 'for a = 1 the density is that of weibull_min.', '3 2 1 ! ! !', '_pdf'),
  ('C45', 'is_weibull_cdf', 'so are cdf and sf.', '3 2 1 ! !'),
  ('C65', 'logpdf_0', 'logpdf(0) is nan when c = 1 or a = 1 ...', '!', '_refuted'),
  ('C65', 'pdf_0', '... although pdf(0) = 1/scale when both are 1.', '@: pdf 0 1 1 2 = Fin (1 / 2).\nProof. apply (C65_exponweib_pdf 1 1 2); lra. Qed.', '_pdf'),
])
GT = '(gp_top xi l s)'
dist('genpareto', 'xi l s', ['0 < s'], 'l', GT, ['(-1/2)%R', '1', '2'], skip=('C31',), log='none', mode=False, ends=('(Fin l)', '(gp_top_v xi l s)'), imports='\nFrom Verif Require Import SpecTop SpecNoMom.', thms=[
  ('C31', 'mono_supp', 'cdf is non-decreasing and the support ends at loc - scale/xi for xi < 0 and at +inf otherwise.', ''),
  ('C34', 'log_ok', 'logpdf is the logarithm of pdf for xi > -1.', '2 !', '_partial'),
  ('C38', 'bad_params', 'invalid scale is rejected.', '(Fin 1) (Fin 1) (Fin 0) [Fin 1] ! !'),
  ('C43', 'mean_ok', 'mean, when there is one (xi < 1).', '!', '_mean'),
  ('C43', 'var_ok', 'variance, when there is one (xi < 1/2).', '!', '_var'),
  ('C43', 'ent_ok', 'entropy.', '', '_entropy'),
  ('C43', 'no_mean_ok', 'for xi >= 1 there is no mean and nan is returned.', '@: mean 1 0 2 = NaN /\\ no_mean (fun x => pdf x 1 0 2) 0 (gp_top 1 0 2).\nProof. apply (C43_genpareto_no_mean 1 0 2); lra. Qed.', '_no_mean'),
  ('C43', 'no_var_ok', 'for xi >= 1/2 there is no finite variance and nan is returned.', '@: var 1 0 2 = NaN /\\ no_var (fun x => pdf x 1 0 2) 0 (gp_top 1 0 2).\nProof. apply (C43_genpareto_no_var 1 0 2); lra. Qed.', '_no_var'),
  ('C44', 'loc_scale', 'location and scale.', '3 1 2 !'),
  ('C49', 'nll_ok', NLLD, '@: nll (map Fin [1; 2; 5]) 1 0 2 = vneg (loglik (fun x => logpdf x 1 0 2) [1; 2; 5]).\nProof. apply (C49_genpareto 1 0 2); [lra|]. intros x [<-|[<-|[<-|[]]]]; (split; [lra|unfold gp_top; destruct (Rle_dec 0 1); simpl; auto; exfalso; lra]). Qed.'),
  ('C49', 'nll_low', OUTS, '[1; -2; 5] !', '_below'),
  ('C49', 'nll_high', 'also above the upper end.', '@: nll (map Fin [1; 7]) (-1)%R 0 2 = Exc ValueError.\nProof. apply (C49_genpareto_above (-1) 0 2); [lra|intros x [<-|[<-|[]]]; lra|]. exists 7. split; [right; left; auto|]. unfold gp_top. destruct (Rle_dec 0 (-1)); simpl; lra. Qed.', '_above'),
  ('C65', 'log_end', 'xi = -1: pdf is 1/scale at the upper end of the support but logpdf is nan there.', '@: pdf (Fin 3) (-1)%R 1 2 = Fin (1 / 2) /\\ logpdf (Fin 3) (-1)%R 1 2 = NaN.\nProof. replace 3 with (1 + 2) by ring. apply (C65_genpareto_refuted (-1) 1 2); lra. Qed.', '_refuted'),
])
dist('genextreme', 'xi l s', ['0 < s'], '(gev_lo xi l s)', '(gev_hi xi l s)', ['(1/3)%R', '1', '2'], skip=('C31',), log='none', mode=False, imports='\nFrom Verif Require M_gumbel_max SFun EulerLib.\nFrom Verif Require Import SpecTop SpecEuler.', thms=[
  ('C31', 'mono_supp', 'cdf is non-decreasing and the support starts at loc - scale/xi for xi > 0, ends there for xi < 0.', ''),
  ('C34', 'log_ok', 'logpdf is the logarithm of pdf for xi > -1.', '2 !', '_partial'),
  ('C34', 'logcdf_ok', 'logcdf is the logarithm of cdf.', '2', '_logcdf'),
  ('C34', 'logsf_ok', 'logsf is the logarithm of sf.', '2', '_logsf'),
  ('C37', 'ends', 'p outside [0,1] is rejected and the ends are right, unless xi is a positive multiple of 1/2 ...', '', '_partial'),
  ('C37', 'ends_hi', '... where invcdf(1) and invsf(0) raise ZeroDivisionError.', '@: invcdf (Fin 1) (1/2)%R 1 2 = Exc ZeroDivisionError /\\ invsf (Fin 0) (1/2)%R 1 2 = Exc ZeroDivisionError.\nProof. apply (C37_genextreme_refuted (1/2) 1 2); [lra|]. exists 1%positive. lra. Qed.', '_refuted'),
  ('C38', 'bad_params', 'invalid scale is rejected.', '(Fin 1) (Fin 1) (Fin 0) (Fin 1) (Fin 1) 3%nat !'),
  ('C39', 'mode_ok', 'the mode maximises pdf for xi >= -1 ...', '!', '_partial'),
  ('C39', 'mode_bad', '... but for xi = -3/2, -2, -5/2, ... pdf(mode()) raises ZeroDivisionError.', '@: pdf (mode (-2)%R 1 2) (-2)%R 1 2 = Exc ZeroDivisionError.\nProof. apply (C39_genextreme_refuted (-2) 1 2); [lra|]. exists 2%positive. lra. Qed.', '_refuted'),
  ('C43', 'mean_ok', 'mean, when there is one (xi < 1); g is the Euler-Mascheroni constant.', '@: exists g, euler_constant g /\\ mean_is (fun x => pdf x (1/3)%R 1 2) (gev_lo (1/3) 1 2) (gev_hi (1/3) 1 2) (mean g (1/3)%R 1 2).\nProof. exists (- SFun.digamma 1). assert (G := EulerLib.euler_digamma). split; auto. apply C43_genextreme_mean; auto; lra. Qed.', '_mean'),
  ('C43', 'var_ok', 'variance, when there is one (xi < 1/2).', '@: exists g, euler_constant g /\\ var_is (fun x => pdf x (1/3)%R 1 2) (gev_lo (1/3) 1 2) (gev_hi (1/3) 1 2) (mean g (1/3)%R 1 2) (var (1/3)%R 1 2).\nProof. exists (- SFun.digamma 1). assert (G := EulerLib.euler_digamma). split; auto. apply C43_genextreme_var; auto; lra. Qed.', '_var'),
  ('C43', 'ent_ok', 'entropy.', '@: exists g, euler_constant g /\\ entropy_is (fun x => pdf x (1/3)%R 1 2) (gev_lo (1/3) 1 2) (gev_hi (1/3) 1 2) (entropy g (1/3)%R 1 2).\nProof. exists (- SFun.digamma 1). assert (G := EulerLib.euler_digamma). split; auto. apply C43_genextreme_entropy; auto; lra. Qed.', '_entropy'),
  ('C43', 'skew_ok', 'skewness for xi < 1/3, xi <> 0.', '@: skewness_is (fun x => pdf x (1/4)%R 1 2) (gev_lo (1/4) 1 2) (gev_hi (1/4) 1 2) (skewness (Fin 1) (1/4)%R 1 2).\nProof. apply C43_genextreme_skewness_partial; lra. Qed.', '_skewness_partial'),
  ('C43', 'kurt_ok', 'excess kurtosis for xi < 1/4, xi <> 0.', '@: kurtosis_is (fun x => pdf x (1/5)%R 1 2) (gev_lo (1/5) 1 2) (gev_hi (1/5) 1 2) (kurtosis (1/5)%R 1 2).\nProof. apply C43_genextreme_kurtosis_partial; lra. Qed.', '_kurtosis_partial'),
  ('C43', 'moment_ok', 'raw moments, when they exist (n xi < 1) and xi <> 0 ...', '@: moment_is (fun x => pdf x (1/5)%R 1 2) (gev_lo (1/5) 1 2) (gev_hi (1/5) 1 2) 3 (noncentral_moment 3 (1/5)%R 1 2).\nProof. apply C43_genextreme_moments_partial; simpl; lra. Qed.', '_moments_partial'),
  ('C43', 'mom_bad', '... for xi = 0 every moment of order 1 or more raises ZeroDivisionError.', '@: noncentral_moment 2 (Fin 0) 1 2 = Exc ZeroDivisionError.\nProof. apply C43_genextreme_moments_refuted; [lra|auto]. Qed.', '_moments_refuted'),
  ('C44', 'loc_scale', 'location and scale.', '(1/3)'),
  ('C45', 'is_gumbel', 'xi = 0 is the Gumbel distribution gumbel_max.', '3 1 2 !'),
  ('C65', 'log_end', 'xi = -1: pdf is 1/scale at the upper end of the support but logpdf is -inf there.', '@: pdf (Fin 3) (-1)%R 1 2 = Fin (1 / 2) /\\ logpdf (Fin 3) (-1)%R 1 2 = NInf.\nProof. replace 3 with (1 + 2) by ring. apply (C65_genextreme_refuted (-1) 1 2); lra. Qed.', '_refuted'),
])
LSN = 'location and scale.'
dist('cauchy', 'l s', ['0 < s'], 'm_infty', 'p_infty', ['1', '2'], log='cert', imports='\nFrom Verif Require Import SpecNoMom.', thms=[
  ('C37', 'rejects', 'p outside [0,1] is rejected ...', '', '_partial'),
  ('C37', 'ends0', '... but p = 0 raises ZeroDivisionError in both invcdf and invsf.', '', '_refuted'),
  ('C38', 'bad_params', 'invalid scale is rejected.', '(Fin 1) (Fin 0) !'),
  ('C43', 'no_mean_ok', 'there is no mean and nan is returned.', '', '_no_mean'),
  ('C43', 'no_var_ok', 'there is no finite variance and nan is returned.', '', '_no_var'),
  ('C43', 'ent_ok', 'entropy.', '', '_entropy'),
  ('C44', 'loc_scale', LSN, '1 2 !'),
])
dist('hypsecant', 'l s', ['0 < s'], 'm_infty', 'p_infty', ['1', '2'], log='cert', imports=SI, thms=[
  ('C37', 'ends0', 'p outside [0,1] is rejected, p = 0 goes to an end of the support.  Missing: p = 1, where the value depends on the rounding of pi/2.', '', '_partial'),
  ('C38', 'bad_params', 'invalid scale is rejected.', '(Fin 1) (Fin 0) [Fin 1] !'),
  ('C43', 'mean_ok', 'mean.', '', '_mean'),
  ('C43', 'var_ok', 'variance.', '', '_var'),
  ('C43', 'ent_ok', 'entropy.', '', '_entropy'),
  ('C44', 'loc_scale', LSN, '1 2 !'),
  ('C47', 'mle_loc', 'scale given: a location returned minimises nll over all locations.', '@: exists fr l, checked_solver1 fr /\\ mle fr (fun _ _ => Err ValueError) None None (map Fin [Ropp 1; 1]) None (Some (Fin 2)) = Ok (Fin l, Fin 2).\nProof. exact P_hypsecant.case_loc. Qed.', '_loc'),
  ('C47', 'mle_scale', 'location given: a positive scale returned minimises nll.', '@: exists fr s, checked_solver1 fr /\\ 0 < s /\\ mle fr (fun _ _ => Err ValueError) None (Some (Fin 1)) (map Fin [Ropp 1; 1]) (Some (Fin 0)) None = Ok (Fin 0, Fin s).\nProof. exact P_hypsecant.case_scale. Qed.', '_scale'),
  ('C47', 'mle_both', 'both free: the pair returned minimises nll if its scale is positive.', '@: exists fr2 l s, checked_solver2 fr2 /\\ 0 < s /\\ mle (fun _ _ => NaN) fr2 (Some (Fin 0)) (Some (Fin 1)) (map Fin [Ropp 1; 1]) None None = Ok (Fin l, Fin s).\nProof. exact P_hypsecant.case_both. Qed.', '_both'),
  ('C47', 'mle_given', 'both given: they are returned.', '(fun _ _ => NaN) (fun _ _ => Err ValueError) None None [1; 2] 1 2 !', '_given'),
  ('C49', 'nll_ok', NLLD, '[1; 2; 5]'),
])
dist('genexpon', 'a b c l s', ['0 < a', '0 < b', '0 < c', '0 < s'], 'l', 'p_infty', ['1', '2', '3', '1', '2'], cert=False, thms=[
  ('C30', 'compl', 'at and above loc cdf and sf are complementary ...', '(Fin 4) ltac:(constructor; lra)', '_partial'),
  ('C30', 'below', '... but below loc cdf, sf, pdf and logpdf raise ValueError instead of returning 0, 1, 0, -inf.', '0 !', '_refuted'),
  ('C31', 'mono', 'at and above loc cdf is non-decreasing; it is 0 at loc and 1 at +inf.', '', '_partial'),
  ('C32', 'density', 'pdf is the derivative of cdf.', '2 !'),
  ('C33', 'mass', 'total mass.', ''),
  ('C35', 'inv_cdf', 'invcdf (with Lambert W) inverts cdf.', ''),
  ('C36', 'inv_sf', 'invsf inverts sf.', ''),
  ('C37', 'ends', ENDS, ''),
  ('C38', 'bad_params', SB, '(Fin 0) (Fin 1) (Fin 1) (Fin 1) (Fin 1) ! ! ! ! ! !'),
  ('C56', 'log_unit', 'for scale = 1 logpdf is the logarithm of pdf ...', '@: log_of (fun x => pdf x 1 2 3 0 1) (fun x => logpdf x 1 2 3 0 1) 4.\nProof. apply (C56_genexpon_partial 1 2 3 0 1); lra. Qed.', '_partial'),
  ('C56', 'log_wrong', '... for every other scale it is too large by log(scale), at every point.', '! 2 !', '_refuted'),
])

NANI = 'cdf and sf are complementary at every argument but +inf ...'
dist('benktander1', 'a b', ['0 < a', '0 < b', 'b <= a * (a + 1) / 2'], '1', 'p_infty', ['2', '1'], cert=False, imports=SI, thms=[
  ('C30', 'compl', NANI, '(Fin 4) ltac:(constructor) ltac:(discriminate)', '_partial'),
  ('C30', 'at_inf', '... where cdf, sf and pdf are nan instead of 1, 0, 0.', '', '_refuted'),
  ('C31', 'mono', 'cdf is non-decreasing at every argument but +inf, 0 up to 1, and tends to 1.', '', '_partial'),
  ('C32', 'density', 'pdf is the derivative of cdf.', ''),
  ('C33', 'mass', 'total mass.', ''),
  ('C34', 'log_all', 'logpdf is the logarithm of pdf.', '3'),
  ('C35', 'inv_cdf', 'invcdf (bracketed root finding) inverts cdf.', ''),
  ('C36', 'inv_sf', 'invsf inverts sf.', ''),
  ('C37', 'ends', ENDS, '(fun _ _ => NaN)'),
  ('C38', 'bad_params', 'parameters that are not positive, or b > a(a+1)/2, are rejected.', '(Fin 1) (Fin 2) ! ! ltac:(right; right; exists 1, 2; repeat split; lra)'),
  ('C39', 'mode_ok', 'mode.', ''),
  ('C43', 'mean_ok', 'mean.', '', '_mean'),
  ('C43', 'var_ok', 'variance.', '', '_var'),
  ('C47', 'eqns_ok', 'the two equations that mle solves are the partial derivatives of the log-likelihood.  Missing: that the stationary point is a maximum.', '2 1 [1; 2; 5] ! ! ! !', '_partial'),
  ('C49', 'nll_ok', NLLD, '[1; 2; 5] !'),
  ('C49', 'nll_bad', OUTS, '[1; -2; 5] !', '_outside'),
])
dist('benktander2', 'a b', ['0 < a', '0 < b', 'b <= 1'], '1', 'p_infty', ['2', '(1/2)'], cert=False, thms=[
  ('C30', 'compl', NANI, '(Fin 4) ltac:(constructor) ltac:(left; discriminate)', '_partial'),
  ('C30', 'at_inf', '... where both are nan when b = 1.', '@: cdf PInf 3 1 = NaN /\\ sf PInf 3 1 = NaN.\nProof. apply (C30_benktander2_refuted 3 1); lra. Qed.', '_refuted'),
  ('C31', 'mono', 'cdf is non-decreasing at every argument but +inf, 0 up to 1, and tends to 1.', '', '_partial'),
  ('C32', 'density', 'pdf is the derivative of cdf.', ''),
  ('C33', 'mass', 'total mass.', ''),
  ('C34', 'log_all', 'logpdf is the logarithm of pdf.', '3'),
  ('C35', 'inv_cdf', 'invcdf (closed form with the Lambert W function) inverts cdf.', ''),
  ('C36', 'inv_sf', 'invsf inverts sf.', ''),
  ('C37', 'ends', 'p outside [0,1] is rejected and the ends are right, except perhaps for invcdf(1) and invsf(0) ...', '', '_partial'),
  ('C37', 'ends_hi', '... which raise ZeroDivisionError for b = 1/3, 1/2, 3/5, ... .', 'ltac:(exists 2%positive; simpl; lra) !', '_refuted'),
  ('C38', 'bad_params', 'invalid parameters are rejected (except by mode) ...', '(Fin 1) (Fin 2) ! ! ltac:(right; right; exists 2; split; [auto|lra])', '_partial'),
  ('C38', 'mode_bad', '... which answers 1 whatever the parameters are.', '(Fin (-1)) (Fin 5)', '_refuted'),
  ('C39', 'mode_ok', 'mode.', ''),
  ('C43', 'mean_ok', 'mean.', '', '_mean'),
  ('C49', 'nll_ok', NLLD, '[1; 2; 5] !'),
  ('C49', 'nll_bad', OUTS, '[1; -2; 5] !', '_outside'),
])
BIS = 'solved numerically by bisection in floating point; SpecBis says what that means.'
dist('beta', 'a b', ['0 < a', '0 < b'], '0', '1', ['2', '3'], skip=('C35', 'C36'), mode=False, imports=SI + '\nFrom Verif Require Import SpecGrid SpecBis.', thms=[
  ('C35', 'invcdf_ok', BIS, ''),
  ('C36', 'invsf_ok', BIS, ''),
  ('C37', 'ends', ENDS, '100%nat 53%positive'),
  ('C38', 'bad_params', 'a shape parameter that is not positive is rejected.', '100%nat 53%positive (Fin 0) (Fin 1) ! ! !'),
  ('C39', 'mode_ok', 'the mode; the density may be infinite at an end of the support.', ''),
  ('C43', 'mean_ok', 'mean.', '', '_mean'),
  ('C43', 'var_ok', 'variance.', '', '_var'),
  ('C43', 'skew_ok', 'skewness.', '', '_skewness'),
  ('C43', 'kurt_ok', 'excess kurtosis.', '', '_kurtosis'),
  ('C43', 'moment_ok', 'every non-central moment.', '5%nat', '_moments'),
  ('C43', 'entropy_ok', 'entropy.', '', '_entropy'),
  ('C45', 'reflect', 'if X is beta(a, b) then 1 - X is beta(b, a).', '2 3 (1/3) ! !'),
  ('C46', 'interval_ok', 'intervals inside the support ...', '2 3 (1/4) (1/2) ! ! ! !', '_partial'),
  ('C46', 'interval_order', '... x1 > x2 is rejected ...', '2 3 (1/2) (1/4) ! ! !', '_order_partial'),
  ('C46', 'interval_wide', '... but the limits are not clipped to the support: the interval (-1, 2) gets probability 3.', '', '_refuted'),
  ('C47', 'c47_a', 'b given: a positive a returned minimises nll.', '@: exists fr, checked_solver1 fr /\\ mle fr (fun _ _ => Err ValueError) None None (map Fin [exp (-1); exp (-1)]) None (Some (Fin 1)) = Ok (Fin 1, Fin 1).\nProof. exact P_beta.case_a. Qed.', '_a'),
  ('C47', 'c47_b', 'a given: a positive b returned minimises nll.', '@: exists fr, checked_solver1 fr /\\ mle fr (fun _ _ => Err ValueError) None None (map Fin [1 - exp (-1); 1 - exp (-1)]) (Some (Fin 1)) None = Ok (Fin 1, Fin 1).\nProof. exact P_beta.case_b. Qed.', '_b'),
  ('C47', 'c47_both', 'both free: a pair of positive numbers returned minimises nll.', '@: exists fr t, checked_solver2 fr /\\ 0 < t < 1 /\\ mle (fun _ _ => NaN) fr (Some (Fin 1)) (Some (Fin 1)) (map Fin [t; 1 - t]) None None = Ok (Fin 1, Fin 1).\nProof. exact P_beta.case_both. Qed.', '_both'),
  ('C47', 'c47_given', 'both given: they are returned.', '(fun _ _ => NaN) (fun _ _ => Err ValueError) None None [1/3; 1/2] 1 2 ! ! ! !', '_given'),
  ('C47', 'mle_const', 'both free and all data equal: the default starting point divides by the sample variance, which is 0.', '(fun _ _ => NaN) (fun _ _ => Err ValueError) (1/3) 4%nat !', '_refuted'),
  ('C48', 'mom_ok', 'mom reproduces the sample mean and variance.', '[1/4; 1/3; 1/2] ! !'),
  ('C49', 'nll_ok', NLLD, '[1/4; 1/2] !'),
  ('C49', 'nll_bad', OUTS, '[1/4; 1; 1/2] !', '_outside'),
])
dist('betaprime', 'a b s', ['0 < a', '0 < b', '0 < s'], '0', 'p_infty', ['2', '5', '3'], skip=('C35', 'C36'), mode=False, imports=SI + '\nFrom Verif Require Import SpecNoMom SpecInv3.\nFrom Verif Require M_beta.', thms=[
  ('C35', 'invcdf_ok', INV),
  ('C36', 'invsf_ok', INV),
  ('C37', 'ends', 'p outside [0,1] is rejected; 0 and 1 go to the ends of the support, except that invsf(0) is wrong: see C58.', '(fun _ _ => NaN) 100%nat', '_partial'),
  ('C38', 'bad_params', 'a parameter that is not positive is rejected.', '(fun _ _ => NaN) 100%nat (Fin 1) (Fin 0) (Fin 1) ! ! ! ltac:(right; left; constructor; lra)'),
  ('C39', 'mode_ok', 'the mode; the density may be infinite at 0.', ''),
  ('C43', 'mean_ok', 'the mean, when it exists ...', '!', '_mean'),
  ('C43', 'no_mean_ok', '... and otherwise it is infinite.', '@: mean 2 1 3 = PInf /\\ no_mean (fun x => pdf x 2 1 3) 0 p_infty.\nProof. apply (C43_betaprime_no_mean 2 1 3); lra. Qed.', '_no_mean'),
  ('C43', 'var_ok', 'the variance, when it exists ...', '!', '_var'),
  ('C43', 'no_var_ok', '... and otherwise nan.', '@: var 2 1 3 = NaN /\\ no_var (fun x => pdf x 2 1 3) 0 p_infty.\nProof. apply (C43_betaprime_no_var 2 1 3); lra. Qed.', '_no_var'),
  ('C43', 'skew_ok', 'skewness.', '!', '_skewness'),
  ('C43', 'kurt_ok', 'excess kurtosis.', '!', '_kurtosis'),
  ('C43', 'moment_ok', 'every non-central moment of order less than b; nan for the others.', '3%nat', '_moments'),
  ('C43', 'entropy_ok', 'entropy.', '', '_entropy'),
  ('C45', 'from_beta', 'if T is beta(a, b) then T/(1-T) is betaprime(a, b) ...', '2 3 (1/3) ! ! !', '_beta'),
  ('C45', 'recip', '... and if X is betaprime(a, b, s) then 1/X is betaprime(b, a, 1/s).', '2 3 4 (1/3) ! ! ! !'),
  ('C47', 'c47_a', 'b and scale given: a positive a returned minimises nll.', '@: exists fr1 fr2 fr3 xs, checked_solver1 fr1 /\\ checked_solver2 fr2 /\\ checked_solver3 fr3 /\\ xs <> [] /\\ (forall x, In x xs -> 0 < x) /\\\n  mle fr1 fr2 fr3 None None None (map Fin xs) None (Some (Fin 1)) (Some (Fin 1)) = Ok (Fin 1, Fin 1, Fin 1).\nProof. exact P_betaprime.case_a. Qed.', '_a'),
  ('C47', 'c47_b', 'a and scale given: a positive b returned minimises nll.', '@: exists fr1 fr2 fr3 xs, checked_solver1 fr1 /\\ checked_solver2 fr2 /\\ checked_solver3 fr3 /\\ xs <> [] /\\ (forall x, In x xs -> 0 < x) /\\\n  mle fr1 fr2 fr3 None None None (map Fin xs) (Some (Fin 1)) None (Some (Fin 1)) = Ok (Fin 1, Fin 1, Fin 1).\nProof. exact P_betaprime.case_b. Qed.', '_b'),
  ('C47', 'c47_ab', 'scale given: a pair of positive numbers returned minimises nll.', '@: exists fr1 fr2 fr3 xs, checked_solver1 fr1 /\\ checked_solver2 fr2 /\\ checked_solver3 fr3 /\\ xs <> [] /\\ (forall x, In x xs -> 0 < x) /\\\n  mle fr1 fr2 fr3 None None None (map Fin xs) None None (Some (Fin 1)) = Ok (Fin 1, Fin 1, Fin 1).\nProof. exact P_betaprime.case_ab. Qed.', '_ab'),
  ('C47', 'c47_s', 'a and b given: a positive scale returned minimises nll.', '@: exists fr1 fr2 fr3 xs, checked_solver1 fr1 /\\ checked_solver2 fr2 /\\ checked_solver3 fr3 /\\ xs <> [] /\\ (forall x, In x xs -> 0 < x) /\\\n  mle fr1 fr2 fr3 None None None (map Fin xs) (Some (Fin 1)) (Some (Fin 1)) None = Ok (Fin 1, Fin 1, Fin 1).\nProof. exact P_betaprime.case_s. Qed.', '_scale'),
  ('C47', 'c47_bs', 'a given: the b and the scale returned each minimise nll with the other fixed.  Missing: the joint minimum.', '@: exists fr1 fr2 fr3 xs, checked_solver1 fr1 /\\ checked_solver2 fr2 /\\ checked_solver3 fr3 /\\ xs <> [] /\\ (forall x, In x xs -> 0 < x) /\\\n  mle fr1 fr2 fr3 None None None (map Fin xs) (Some (Fin 1)) None None = Ok (Fin 1, Fin 1, Fin 1).\nProof. exact P_betaprime.case_bs. Qed.', '_b_scale_partial'),
  ('C47', 'c47_as', 'b given: the a and the scale returned each minimise nll with the other fixed.  Missing: the joint minimum.', '@: exists fr1 fr2 fr3 xs, checked_solver1 fr1 /\\ checked_solver2 fr2 /\\ checked_solver3 fr3 /\\ xs <> [] /\\ (forall x, In x xs -> 0 < x) /\\\n  mle fr1 fr2 fr3 None None None (map Fin xs) None (Some (Fin 1)) None = Ok (Fin 1, Fin 1, Fin 1).\nProof. exact P_betaprime.case_as. Qed.', '_a_scale_partial'),
  ('C47', 'c47_abs', 'all free: the pair (a, b) minimises nll for the scale returned, and the scale for the a and b returned.  Missing: the joint minimum.', '@: exists fr1 fr2 fr3 xs, checked_solver1 fr1 /\\ checked_solver2 fr2 /\\ checked_solver3 fr3 /\\ xs <> [] /\\ (forall x, In x xs -> 0 < x) /\\\n  mle fr1 fr2 fr3 None None None (map Fin xs) None None None = Ok (Fin 1, Fin 1, Fin 1).\nProof. exact P_betaprime.case_abs. Qed.', '_all_partial'),
  ('C47', 'c47_given', 'all given: they are returned.', '(fun _ _ => NaN) (fun _ _ => Err ValueError) (fun _ _ => Err ValueError) None None None [1/3; 1/2] 1 2 3 ! ! ! ! !', '_given'),
  ('C49', 'nll_ok', NLLD, '2 3 1 [1/4; 2] ! ! ! !'),
  ('C49', 'nll_bad', OUTS, '2 3 1 [1/4; -1; 1/2] ! ! ! !', '_outside'),
  ('C58', 'invsf_0', 'invsf(0) is 1, although the support extends to infinity and sf(1) is not 0.', '(fun _ _ => NaN) 100%nat', '_refuted'),
])
dist('f', 'n d', ['0 < n', '0 < d'], '0', 'p_infty', ['3', '5'], cert=False, imports=SI + '\nFrom Verif Require Import SpecNoMom SpecGrid SpecBis.\nFrom Verif Require M_betaprime.', thms=[
  ('C30', 'compl', NANI, '(Fin 4) ltac:(constructor) ltac:(discriminate)', '_partial'),
  ('C30', 'at_inf', '... where both are nan.', '', '_refuted'),
  ('C31', 'mono', 'cdf is non-decreasing at every argument but +inf, 0 up to 0, and tends to 1.', '', '_partial'),
  ('C32', 'density', 'pdf is the derivative of cdf.', ''),
  ('C33', 'mass', 'total mass.', ''),
  ('C34', 'log_all', 'logpdf is the logarithm of pdf.', '3'),
  ('C35', 'invcdf_ok', 'bisection finds a number g next to dfn q/(dfn q + dfd), where q is the exact quantile; the result is the corresponding point, but ZeroDivisionError if g has been rounded to 1.  Missing: the accuracy of the result when q is large.', '53%positive (1/3) !', '_partial'),
  ('C36', 'invsf_ok', 'the same for invsf, with g next to dfd/(dfn q + dfd).', '53%positive (1/3) !', '_partial'),
  ('C37', 'ends', 'p outside [0,1] is rejected; invcdf(0) and invsf(1) are 0 ...', '100%nat 53%positive', '_partial'),
  ('C37', 'ends_bad', '... but invcdf(1) and invsf(0) raise ZeroDivisionError.', '100%nat 53%positive', '_refuted'),
  ('C38', 'bad_params', 'degrees of freedom that are not positive are rejected.', '100%nat 53%positive (Fin 0) (Fin 1) ! ! !'),
  ('C39', 'mode_ok', 'the mode, for dfn > 2 ...', '!', '_partial'),
  ('C39', 'mode_bad', '... but for dfn <= 2 it is 0, where pdf is 0.', '@: mode 2 5 = Fin 0 /\\ pdf 0 2 5 = Fin 0 /\\ exists v, pdf 1 2 5 = Fin v /\\ 0 < v.\nProof. apply (C39_f_refuted 2 5); lra. Qed.', '_refuted'),
  ('C43', 'mean_ok', 'the mean, when it exists ...', '!', '_mean'),
  ('C43', 'no_mean_ok', '... and otherwise inf.', '@: mean 3 2 = PInf /\\ no_mean (fun x => pdf x 3 2) 0 p_infty.\nProof. apply (C43_f_no_mean 3 2); lra. Qed.', '_no_mean'),
  ('C43', 'var_ok', 'the variance, when it exists ...', '!', '_var'),
  ('C43', 'no_var_ok', '... and otherwise inf.', '@: var 3 4 = PInf /\\ no_var (fun x => pdf x 3 4) 0 p_infty.\nProof. apply (C43_f_no_var 3 4); lra. Qed.', '_no_var'),
  ('C43', 'entropy_ok', 'entropy.', '', '_entropy'),
  ('C45', 'family', 'F(dfn, dfd) is betaprime(dfn/2, dfd/2) with scale dfd/dfn ...', '(1/3)', '_betaprime'),
  ('C45', 'recip', '... and if X is F(dfn, dfd) then 1/X is F(dfd, dfn).', '(1/3) !'),
])
dist('studentt', 'n', ['0 < n'], 'm_infty', 'p_infty', ['3'], skip=('C35', 'C36'), log='cert', imports=SI + '\nFrom Verif Require Import SpecNoMom SpecRoot M_bracket.\nFrom Verif Require M_f M_cauchy.', thms=[
  ('C35', 'invcdf_lo', 'for p <= 1/2 the quantile is found ...', '(1/3) !', '_lower_partial'),
  ('C35', 'invcdf_hi', '... and for p > 1/2 too, unless the bracket search hits it exactly.  Missing: that case, where the sign is wrong, see C61.', '(2/3) !', '_upper_partial'),
  ('C36', 'invsf_lo', 'the same for invsf.', '(1/3) !', '_lower_partial'),
  ('C36', 'invsf_hi', 'the same for invsf.  Missing: an exact hit of the bracket search, where the sign is wrong, see C61.', '(2/3) !', '_upper_partial'),
  ('C37', 'ends', ENDS, '(fun _ _ => NaN) 100%nat'),
  ('C38', 'bad_params', 'degrees of freedom that are not positive are rejected.', '(fun _ _ => NaN) 100%nat (Fin 0) ! !'),
  ('C43', 'mean_ok', 'the mean, when it exists ...', '!', '_mean_partial'),
  ('C43', 'no_mean_ok', '... but 0 is returned also for df <= 1, when there is no mean.', '@: mean 1 = Fin 0 /\\ no_mean (fun x => pdf x 1) m_infty p_infty.\nProof. apply (C43_studentt_mean_refuted 1); lra. Qed.', '_mean_refuted'),
  ('C43', 'ent_ok', 'entropy.', '', '_entropy'),
  ('C45', 'reflect', 'the law is symmetric about 0 ...', '2', '_symmetric'),
  ('C45', 'square', '... if X is t(df) then X^2 is F(1, df) ...', '2 !', '_f'),
  ('C45', 'cauchy', '... and t(1) is the standard Cauchy distribution.', '2', '_cauchy'),
  ('C61', 'invcdf_sign', 'with p = cdf(3/2, df) the bracket search hits -3/2 exactly and invcdf(p, df) is -3/2, whatever the root finder.', '', '_refuted'),
  ('C61', 'invsf_sign', 'likewise invsf(sf(-3/2, df), df) is 3/2.', '', '_invsf_refuted'),
])

dist('truncnorm', 'a b', ['Rbar_lt a b'], '', '', ['Finite 1', 'p_infty'], cert=False, binders='(a b : Rbar)', imports='\nFrom Verif Require M_normal.', pre='Notation V := val_of_Rbar.\n', thms=[
  ('C30', 'cdf_ok', 'cdf and sf; the ends a < b of the interval may be infinite.', ''),
  ('C31', 'support_ok', 'monotone, with the support reported.', ''),
  ('C32', 'density_ok', 'pdf is the density.', ''),
  ('C33', 'mass_ok', 'pdf integrates to 1.', ''),
  ('C34', 'log_ok', 'logpdf is the logarithm of pdf at every real.', '2'),
  ('C35', 'inverse_ok', 'invcdf inverts cdf.', ''),
  ('C36', 'inverse_sf_ok', 'invsf inverts sf.', ''),
  ('C37', 'ends', ENDS, ''),
  ('C38', 'bad_params', 'an empty interval is rejected.', '=p_infty (Finite 1) 3%nat I'),
  ('C39', 'mode_ok', 'the mode.', ''),
  ('C43', 'mean_ok', 'mean ...', '', '_mean'),
  ('C43', 'var_ok', '... variance ...', '', '_var'),
  ('C43', 'skewness_ok', '... skewness ...', '', '_skewness'),
  ('C43', 'kurtosis_ok', '... excess kurtosis ...', '', '_kurtosis'),
  ('C43', 'median_ok', '... median ...', '', '_median'),
  ('C43', 'ent_ok', '... and entropy.', '', '_entropy'),
  ('C55', 'conditioned', 'the law is the normal law conditioned on the interval ...', '2 ! !', '_law'),
  ('C55', 'moments_ok', '... and the recurrence returns the true moments of every order.', '5%nat !', '_moments'),
])

dist('power_normal', 'c l s', ['0 < c', '0 < s'], 'm_infty', 'p_infty', ['3', '1', '2'], log='cert', mode=False, ends=('NInf', 'PInf'), imports='\nFrom Verif Require M_normal.', thms=[
  ('C38', 'bad_params', LSBAD, '(Fin 0) (Fin 1) (Fin 2) ! ! !'),
  ('C44', 'loc_scale', 'location and scale.', '(5/2) !'),
  ('C45', 'normal_case', 'c = 1 is the normal law ...', '2 (1/3) 1 2 ! !', '_normal'),
  ('C45', 'minimum', '... and for a positive integer c the law is that of the smallest of c independent normal variables.', '@: exists q, M_normal.sf (Fin 1) 1 2 = Fin q /\\ sf (Fin 1) 3 1 2 = Fin (q ^ 3).\nProof. apply (C45_power_normal_minimum 3 1 2 ltac:(lra) ltac:(lra) 3%nat 1). simpl. lra. Qed.', '_minimum'),
])

dist('invchi2', 'n', ['0 < n'], '0', 'p_infty', ['5'], skip=('C35', 'C36'), imports='\nFrom Verif Require M_invgamma M_chi2.', thms=[
  ('C38', 'bad_params', 'degrees of freedom that are not positive are rejected.', '(Fin 0) !'),
  ('C43', 'mean_ok', 'mean ...', '!', '_mean'),
  ('C43', 'var_ok', '... and variance ...', '!', '_var'),
  ('C43', 'moments_nan', '... with nan where they do not exist.', '', '_nan'),
  ('C45', 'recip', 'the law of 1/X for a chi-square X ...', '2 !', '_chi2'),
  ('C45', 'pdf_same', '... which is the inverse gamma law with shape nu/2 and scale 1/2.', '2', '_invgamma'),
])

dist('slash', '', [], 'm_infty', 'p_infty', [], skip=('C35', 'C36'), log='cert', imports=SI + '\nFrom Verif Require Import SpecNoMom.', thms=[
  ('C35', 'invcdf_ok', 'any number returned is the quantile, whatever checked root finder is used.  Missing: that the root finder, started from a single point, returns.', '(1/3) !', '_partial'),
  ('C36', 'invsf_ok', 'the same for invsf.  Missing: that the root finder returns.', '(1/3) !', '_partial'),
  ('C37', 'ends', ENDS, '(fun _ _ => NaN)'),
  ('C43', 'no_mean_ok', 'mean() is 0 although the distribution has no mean.', '', '_mean_refuted'),
  ('C45', 'reflect', 'the law is symmetric about 0.', '2'),
])

dist('cosine', '', [], '(- PI)', 'PI', [], skip=('C35', 'C36'), imports=SI, thms=[
  ('C35', 'invcdf_ok', 'any number returned is the quantile, whatever checked root finder is used.  Missing: that the root finder, started from a single point, returns.', '(1/3) !', '_partial'),
  ('C36', 'invsf_ok', 'the same for invsf.  Missing: that the root finder returns.', '(1/3) !', '_partial'),
  ('C37', 'ends', ENDS, '(fun _ _ => NaN)'),
  ('C43', 'mean_ok', 'mean ...', '', '_mean'),
  ('C43', 'var_ok', '... variance ...', '', '_var'),
  ('C43', 'skewness_ok', '... skewness ...', '', '_skewness'),
  ('C43', 'kurtosis_ok', '... and excess kurtosis.', '', '_kurtosis'),
  ('C45', 'reflect', 'the law is symmetric about 0.', '2'),
])
dist('loggamma', 'k s', ['0 < k', '0 < s'], 'm_infty', 'p_infty', ['2', '3'], skip=('C35', 'C36'), log='cert', mode=False, imports=SI + '\nFrom Verif Require M_gamma.', thms=[
  ('C35', 'invcdf_ok', INV),
  ('C36', 'invsf_ok', 'any number returned is the quantile, whatever checked root finder is used.  Missing: that the root finder, started from a single point, returns.', '(1/3) !', '_partial'),
  ('C37', 'ends', ENDS, '(fun _ _ => NaN) (fun _ _ => NaN) 100%nat'),
  ('C38', 'bad_params', 'invalid shape or scale is rejected (by the inverses, for 0 < p < 1) ...', '(Fin 0) (Fin 1) ! ! !'),
  ('C38', 'bad_refuted', '... but for p = 0 or 1 the inverses return without looking at the parameters.', '(fun _ _ => NaN) (fun _ _ => NaN) 100%nat', '_refuted'),
  ('C39', 'mode_ok', 'the mode.', ''),
  ('C43', 'mean_ok', 'mean ...', '', '_mean'),
  ('C43', 'var_ok', '... variance ...', '', '_var'),
  ('C43', 'skewness_ok', '... skewness ...', '', '_skewness'),
  ('C43', 'kurtosis_ok', '... and excess kurtosis.', '', '_kurtosis'),
  ('C44', 'scale_ok', 'multiplying x and theta by c > 0.', '2 1 !'),
  ('C45', 'exp_gamma', 'the exponential of a loggamma variable is a gamma variable.', '(-2)'),
  ('C46', 'interval_ok', 'interval_prob is the difference of cdf values for every pair x1 <= x2, infinite ends included ...', '(Fin (-1)) PInf !'),
  ('C46', 'interval_rev', '... and x1 > x2 is rejected.', '2 1 !', '_order'),
  ('C47', 'c47_k', 'theta given: k minimises nll.', '@: exists fr k, checked_solver fr /\\ 0 < k /\\ mle (Fin 1) fr (fun _ _ => NaN) (fun _ _ => Err ValueError) None None (map Fin [-1; 1]) None (Some (Fin 1)) = Ok (Fin k, Fin 1).\nProof. exact P_loggamma.mle_k_case. Qed.', '_shape'),
  ('C47', 'c47_s', 'k given: a positive theta returned minimises nll.', '@: exists fr1 k, checked_solver1 fr1 /\\ 0 < k /\\ mle (Fin 1) (fun _ _ => NaN) fr1 (fun _ _ => Err ValueError) None None (map Fin [1]) (Some (Fin k)) None = Ok (Fin k, Fin 1).\nProof. exact P_loggamma.mle_s_case. Qed.', '_scale'),
  ('C47', 'c47_both', 'both free: nll cannot be lowered by changing one of the two.  Missing: that the pair is a joint minimum.', '@: exists fr2 k d, checked_solver2 fr2 /\\ 0 < k /\\ 0 < d /\\ mle (Fin 1) (fun _ _ => NaN) (fun _ _ => NaN) fr2 None None (map Fin [- d; d]) None None = Ok (Fin k, Fin 1).\nProof. exact P_loggamma.mle_both_case. Qed.', '_both_partial'),
  ('C49', 'nll_ok', NLLD, '[1; -2; 5] 2 3 ! !'),
])
dist('folded_normal', 'u s', ['0 < s'], '0', 'p_infty', ['-2', '3'], skip=('C35', 'C36'), mode=False, imports=SI + '\nFrom Verif Require M_normal.', thms=[
  ('C34', 'log_inf', 'at +inf the density is 0 but logpdf is nan, not -inf.', '', '_pinf_refuted'),
  ('C38', 'bad_params', 'a nonpositive sigma is rejected.', '(Fin 0) (Fin 0) (fun _ _ => NaN) 100%nat ! ! !'),
  ('C39', 'mode_small', '|mu| <= sigma: the mode is 0.', '(fun _ _ => NaN) 0%nat (Rabs_le (-2) 3 ltac:(lra))'),
  ('C39', 'mode_large', '|mu| > sigma: any positive number returned is the mode, whatever checked root finder is used.  Missing: that the root finder returns, and a positive number.', '@: exists u fr x, checked_solver1 fr /\\ 1 < Rabs u /\\ 0 < x /\\ mode fr 0 (Fin u) (Fin 1) = Fin x.\nProof. exact P_folded_normal.mode_case. Qed.', '_large_partial'),
  ('C39', 'start_total', 'the loop that looks for a starting point ends, at a point where the equation is negative.', '(9/8) !', '_start'),
  ('C43', 'mean_ok', 'mean ...', '', '_mean'),
  ('C43', 'var_ok', '... and variance.', '', '_var'),
  ('C44', 'scale_ok', 'multiplying x, mu and sigma by c > 0.', '2 1 !'),
  ('C45', 'folded', 'the law of |X| for normal X ...', '1 !'),
  ('C45', 'reflect', '... which does not depend on the sign of mu.', '2', '_sign'),
])

disc('trunc_discrete_exp', '(lam : R) (n : nat)', ['0 <= lam', '(0 < n)%nat'], ['(1/2)', '5%nat'], [
  ('C40', 'mode_ok', 'the mode is the smallest maximiser.', ''),
  ('C41', 'mass_ok', 'the support, and the probabilities: non-negative, sum 1, zero at every other integer.', ''),
  ('C41', 'zero_n', 'n = 0 passes validation: the support is empty, no integer has positive probability, and the mean of the uniform case is -1/2; mode accepts any parameters.', '=', '_refuted'),
  ('C42', 'cdf_ok', 'cdf and sf are partial sums, for every integer k.', '3%Z'),
  ('C34', 'log_ok', 'logpmf is the logarithm of pmf at every integer.', ''),
  ('C38', 'bad_params', DBAD, '=(-1) 3 2%Z ltac:(left; lra)', '_partial'),
  ('C38', 'bad_k', 'a k that is not an integer is rejected.', '=(1/2) (Fin 1) (Fin 5) P_trunc_discrete_exp.half_not_int', '_k'),
  ('C43', 'mean_ok', 'the mean.', ''),
  ('C43', 'var_ok', 'the variance.', '', '_var'),
  ('C43', 'entropy_ok', 'the entropy.', '', '_entropy'),
])

disc('betabinomial', '(n : nat) (a b : R)', ['0 < a', '0 < b'], ['5%nat', '(1/2)', '2'], [
  ('C40', 'mode_small', 'the mode is the smallest maximiser.', ''),
  ('C41', 'mass_ok', 'the support, and the probabilities: non-negative, sum 1, zero at every other integer.', ''),
  ('C42', 'cdf_ok', 'cdf and sf are partial sums, for every integer k (hyp3f2 at 1 is its terminating series).', '3%Z'),
  ('C34', 'log_ok', 'logpmf is the logarithm of pmf at every integer.', ''),
  ('C38', 'bad_params', DBAD, '=(-1) 1 2 [Fin 0] ltac:(left; lra)', '_partial'),
  ('C43', 'moments_ok', 'mean and variance.', ''),
  ('C43', 'shape_ok', 'skewness and excess kurtosis, for n > 0.', '!', '_shape'),
  ('C49', 'nll_laws', CNT, '=5%nat (1/3) 2 [1;0;3]%nat [2;0;5]%nat ! ! !'),
  ('C47', 'stat_both', 'mle with both shape parameters free returns a stationary point of nll in each of them.  Missing: that the stationary point is the minimum.', '@: exists fr, checked_solver2 fr /\\ mle (fun _ _ => NaN) fr (vNs [0; 1]%nat) None (Fin (INR 1)) (inr (Fin 1)) (inr (Fin 1)) = Ok (Fin 1, Fin 1). Proof. exact P_betabinomial.case_both. Qed.', '_partial'),
  ('C47', 'stat_a', 'mle with b given returns that b and a stationary point of nll in a.  Missing: that it is the minimum.', '@: exists fr, checked_solver1 fr /\\ mle fr (fun _ _ => Err ValueError) (vNs [0; 1]%nat) None (Fin (INR 1)) (inr (Fin 1)) (inl (Fin 1)) = Ok (Fin 1, Fin 1). Proof. exact P_betabinomial.case_a. Qed.', '_a_partial'),
  ('C47', 'stat_b', 'mle with a given returns that a and a stationary point of nll in b.  Missing: that it is the minimum.', '@: exists fr, checked_solver1 fr /\\ mle fr (fun _ _ => Err ValueError) (vNs [0; 1]%nat) None (Fin (INR 1)) (inl (Fin 1)) (inr (Fin 1)) = Ok (Fin 1, Fin 1). Proof. exact P_betabinomial.case_b. Qed.', '_b_partial'),
  ('C47', 'mle_given', 'mle with both shape parameters given returns them.', '=1%nat [0;1]%nat None (le_n 1) (P_betabinomial.dat 1 (le_n 1)) eq_refl (fun _ _ => NaN) (fun _ _ => Err ValueError) 1 2 ! !', '_given'),
], '\nFrom Verif Require Import SpecInv.')

disc('logseries', '(p : R)', ['0 < p < 1'], ['(1/3)'], [
  ('C40', 'mode_ok', 'the mode is the smallest maximiser.', ''),
  ('C41', 'mass_ok', 'the support, and the probabilities: non-negative, sum 1, zero at every other integer (0 < p < 1).', '', '_partial'),
  ('C41', 'ends_bad', 'p = 0 and p = 1 pass validation: pmf is nan or 0 at every point of the support, cdf and mean raise ZeroDivisionError.', '=2%nat ltac:(auto with arith)', '_refuted'),
  ('C42', 'cdf_ok', 'cdf and sf are partial sums, for every integer k.', '3%Z'),
  ('C34', 'log_ok', 'logpmf is the logarithm of pmf at every integer.', ''),
  ('C38', 'bad_params', DBAD, '=2 [Fin 1] ltac:(right; lra)', '_partial'),
  ('C43', 'moments_ok', 'mean and variance.', ''),
  ('C43', 'shape_ok', 'skewness and excess kurtosis.', '', '_shape'),
  ('C49', 'nll_laws', CNT, '[1;2;3]%nat [2;0;5]%nat !'),
  ('C47', 'mle_ok', 'mle minimises nll over 0 < p < 1, whatever checked root finders and starting point are used, when the data are not all 1.', '@: exists fr1 fr2 p, checked_solver1 fr1 /\\ checked_solver fr2 /\\ mle fr1 fr2 (fun m => m) (vNs [1; 1; 2]%nat) None = Fin p. Proof. exact P_logseries.mle_case. Qed.'),
  ('C47', 'all_one', 'when all data are 1 mle returns 0: nll is positive and decreases towards p = 0.', '=(fun _ _ => NaN) (fun _ _ => NaN) (fun m => m) 3%nat ltac:(auto with arith)', '_ones'),
], '\nFrom Verif Require Import SpecInv.')

dist('argus', 'c s', ['0 <= c', '0 < s'], '0', 's', ['2', '3'], skip=('C35', 'C36'), imports=SI + '\nFrom Verif Require Import SpecRoot.\nFrom Verif Require RootLib.', thms=[
  ('C35', 'invcdf_ok', INV),
  ('C36', 'invsf_ok', INV),
  ('C37', 'ends', ENDS, '@: exists fr, bracket_solver fr.\nProof. exact (ex_intro _ _ RootLib.ref_root_ok). Qed.'),
  ('C38', 'bad_params', 'a negative chi or a scale that is not positive is rejected by every function.', '(fun _ _ => NaN) 100%nat (Fin 1) (Fin 0) ! ! ltac:(right; constructor; lra)'),
  ('C43', 'mean_ok', 'mean; besseli is given by its integral.', '', '_mean'),
  ('C43', 'var_ok', 'variance.', '', '_var'),
  ('C44', 'scale_ok', 'multiplying x and scale by k > 0.', '2 3 ! ! 2 1 !'),
])
TL = "=RootLib.ref_root 5%nat (1/4) 2 1 3 RootLib.ref_root_ok ! ! ! ! "
disc('tukeylambda', '(fr : (val -> val) -> val * val -> val) (n : nat) (delta lam loc scale : R)', ['bracket_solver fr', '0 < delta', '2 <= delta * 2 ^ n', '0 < lam', '0 < scale'],
  ['RootLib.ref_root', '5%nat', '1/4', '2', '1', '3'], [
  ('C30', 'compl', 'positive shape; cdf is solved numerically: delta is sqrt(eps), the refinement loop has n + 1 steps.', TL),
  ('C31', 'supp', 'cdf runs from 0 to 1 over the support (loc - scale/lam, loc + scale/lam).', TL),
  ('C32', 'dens', 'pdf is the derivative of the numerically solved cdf.', TL),
  ('C33', 'mass', 'the density integrates to 1.', TL),
  ('C34', 'log_ok', 'logpdf is the logarithm of pdf at every real x.', TL + '1'),
  ('C35', 'inv_ok', 'invcdf and the numerically solved cdf are inverse to each other.', TL),
  ('C36', 'invsf_ok', 'invsf and sf are inverse to each other.', TL),
  ('C43', 'moment_ok', 'raw moments of every order, positive shape.', TL + '4%nat', '_moment'),
  ('C43', 'mean_var_ok', 'mean and variance, positive shape.', TL),
  ('C37', 'ends', 'p outside [0,1] is rejected; 0 and 1 go to the ends of the support, for every shape.', '2 1 3 !'),
  ('C38', 'bad_params', 'a scale that is not positive is rejected by every function.', '(fun _ _ => NaN) 5%nat (Fin 1) (Fin 2) (Fin 0) (Fin 0) ! ltac:(constructor; lra)'),
  ('C35', 'quant_ok', 'every shape except 0: at the quantile of p, the solved cdf and sf are p and 1 - p, and pdf is 1 over the derivative of invcdf; for a negative shape p must be more than delta away from 0 and 1, or the tail must be the near one and the shape not too close to 0.', 'RootLib.ref_root 5%nat (1/8) (-1) 1 3 (1/3) RootLib.ref_root_ok ! ! ! ! !', '_quantile_partial'),
  ('C43', 'qmoment_ok', 'raw moments of every order k with lam k > -1, as integrals of the quantile function.', '(-(1/4)) 1 3 2%nat ! ! ltac:(simpl; lra)', '_quantile'),
  ('C43', 'qmean_var_ok', 'mean for lam > -1 and variance for lam > -1/2, as integrals of the quantile function.', '(-(1/4)) 1 3 ! !', '_mean'),
  ('C44', 'loc_scale', 'location and scale, positive shape.', 'RootLib.ref_root 5%nat (1/4) 2 RootLib.ref_root_ok ! ! !'),
  ('C45', 'logistic_ok', 'with lam = 0 every function is that of the logistic distribution.', '(fun _ _ => NaN) 5%nat (Fin 1) 1 3 !'),
  ('C30', 'neg_inf', 'with a negative shape, cdf(-inf) and sf(+inf) raise ZeroDivisionError.', '(fun _ _ => NaN) 5%nat (1/4) (-1) 1 3 ! ! !', '_refuted'),
  ('C43', 'mom1_bad', 'for lam <= -1 the first raw moment is loc although mean is nan.', '(-2) 1 3 ! !', '_first_refuted'),
  ('C43', 'mom2_bad', 'for lam = 0 the second raw moment raises ZeroDivisionError although the variance is finite.', '1 3 !', '_second_refuted'),
], imports='\nFrom Verif Require Import SpecRoot M_common.\nFrom Verif Require RootLib M_logistic.')
disc('vonmises', '(kappa mu : R)', [], ['2', '1'], [
  ('C31', 'supp', 'the support, and a positive density that is 2 pi periodic and symmetric about mu.', ''),
  ('C33', 'mass', 'the density integrates to 1 over the support; besseli is given by its integral.', ''),
  ('C34', 'log_ok', 'logpdf is the logarithm of pdf at every real x.', '1'),
  ('C31', 'mode_ok', 'the density is largest at mu.', '! 0', '_peak'),
  ('C43', 'circ_ok', 'circular mean and variance: the mean of the unit vectors (cos x, sin x) has direction circmean and length 1 - circvar.', '!'),
  ('C43', 'ent_ok', 'entropy.', '', '_entropy'),
  ('C43', 'circ_bad', 'kappa < 0 is accepted; then the mean direction is mu + pi, not circmean, and circvar exceeds 1.', '=(-2) 1 !', '_refuted'),
], imports='\nFrom Verif Require Import SpecStat SpecEst M_common.')
disc('marcumq', '', [], [], [
  ('C74', 'spec_ok', 'a > 0: the two functions are the integral above b and its complement.', '2 1 3 ! ! !'),
  ('C74', 'range_ok', 'marcumq is 1 at b = 0, 0 at b = inf, and decreasing in b.', '2 1 ! !', '_range'),
  ('C74', 'central_ok', 'a = 0: incomplete gamma functions, including the shortcut for m = 1.', '1 3 ! !', '_central'),
], imports='\nFrom Coq Require Import Lra.\nFrom Coquelicot Require Import Coquelicot.\nFrom Verif Require Import SpecMarcum SFun M_sfun.')
dist('ncx2', 'k lam', ['0 < k', '0 < lam'], '0', 'p_infty', ['3', '2'], skip=('C34', 'C35', 'C36'), mode=False, imports='\nFrom Verif Require M_chi2.', thms=[
  ('C43', 'mean_ok', 'mean.', '', '_mean'),
  ('C43', 'var_ok', 'variance.', '', '_var'),
  ('C31', 'supp_ok', 'support.', '', '_support'),
  ('C45', 'central', 'cdf and sf with lam = 0 are those of chi2.', '3 !'),
  ('C32', 'pdf_zero', 'lam = 0 is accepted by cdf and sf but pdf raises ZeroDivisionError.', '=2 ! 3 !', '_central_refuted'),
  ('C38', 'no_check', 'a negative k is accepted.', '', '_refuted'),
])
dist('rice', 'nu sigma', ['0 <= nu', '0 < sigma'], '0', 'p_infty', ['1', '2'], skip=('C35', 'C36'), log='inner', mode=False, imports=SI, thms=[
  ('C34', 'log_zero', 'outside the support both are the logarithm of 0.', '(-1) !', '_zero'),
  ('C43', 'moment_ok', 'raw moments of every order, by the code\'s 1F1 formula.', '3%nat', '_moment'),
  ('C43', 'mean_ok', 'mean.', '', '_mean'),
  ('C43', 'var_ok', 'variance.', '', '_var'),
  ('C43', 'second_ok', 'the second moment in closed form.', '', '_second'),
  ('C31', 'supp_ok', 'support.', '', '_support'),
  ('C39', 'mode_crit', 'a positive mode returned is a critical point of the density.', '@: exists fr, checked_solver1 fr /\\ mode fr 0 2 = Fin 2.\nProof. exact P_rice.mode_case. Qed.', '_partial'),
  ('C39', 'mode_sign', 'the function solved by mode has the sign of the derivative of the density.', '1 !', '_sign_partial'),
  ('C38', 'bad_params', 'a negative nu or a sigma that is not positive is rejected by every function.', '(fun _ _ => NaN) (Fin 1) (Fin 0) ! ! ltac:(right; constructor; lra)'),
])
dist('rel_breitwigner', 'rho s', ['0 < rho', '0 < s'], '0', 'p_infty', ['2', '3'], skip=('C35', 'C36'), imports=SI, thms=[
  ('C35', 'invcdf_ok', INV),
  ('C36', 'invsf_ok', INV),
  ('C37', 'bad_p', 'p outside [0,1] is rejected by both inverses.', '(fun _ _ => NaN) 100%nat 2 1 1 ltac:(right; lra)', '_partial'),
  ('C38', 'bad_params', 'a rho or a scale that is not positive is rejected by every function.', '(fun _ _ => NaN) 100%nat (Fin 1) (Fin 0) ! ! ltac:(right; constructor; lra)'),
  ('C43', 'mean_ok', 'mean.', '', '_mean'),
  ('C43', 'var_ok', 'variance.', '', '_var'),
  ('C43', 'moment_ok', 'raw moments of order at most 2.', '2%nat ltac:(auto)', '_moment'),
  ('C43', 'moment_big', 'moments of order 3 and more are returned as inf; they do not exist.', '3%nat ltac:(auto)', '_infinite'),
  ('C44', 'scale_ok', 'multiplying x and scale by k > 0.', '2 3 ! ! 2 1 !'),
  ('C31', 'supp_ok', 'support.', '', '_support'),
])
disc('power_mle', '', [], [], [
  ('C75', 'boxcox_profile', 'Box-Cox: the log-likelihood maximised over mu and sigma.', '@: exists L, boxcox_llf (Fin 2) (map Fin [1; 3]) = Fin L.\nProof.\n  destruct (C75_power_mle_boxcox 2 [1; 3]) as [L [E _]]; [intros x [<-|[<-|[]]]; lra|intros K; pose proof (K 1 3 ltac:(simpl; auto) ltac:(simpl; auto)); lra|].\n  exists L. exact E.\nQed.', '_boxcox'),
  ('C75', 'yeojohnson_profile', 'Yeo-Johnson: the same, for data of any sign.', '@: exists L, yeojohnson_llf (Fin 2) (map Fin [-1; 3]) = Fin L.\nProof.\n  destruct (C75_power_mle_yeojohnson 2 [-1; 3]) as [L [E _]]; [intros K; pose proof (K (-1) 3 ltac:(simpl; auto) ltac:(simpl; auto)); lra|].\n  exists L. exact E.\nQed.', '_yeojohnson'),
  ('C75', 'boxcox_mle_ok', 'a value returned by boxcox_mle is a stationary point.', '@: exists fr, checked_solver1 fr /\\ boxcox_mle fr (map Fin [exp (-1); exp 1]) (Fin 0) = Fin 0.\nProof. exact P_power_mle.bc_case. Qed.', '_boxcox_mle'),
  ('C75', 'yeojohnson_mle_ok', 'a value returned by yeojohnson_mle is a stationary point.', '@: exists fr, checked_solver1 fr /\\ yeojohnson_mle fr (map Fin [-1; 1]) (Fin 0) = Fin 1.\nProof. exact P_power_mle.yj_case. Qed.', '_yeojohnson_mle'),
], imports='\nFrom Verif Require Import SpecPower SpecInv.')
disc('fun2', '', [], [], [
  ('C76', 'wright_ok', 'the sum of the series, in every branch: z = 0, rho = 0, rho = 1 and the general one.', '(1/2) 1 2 ! ! (fun _ => ltac:(lra))', '_series'),
  ('C76', 'wright_bad', 'rho <= -1 is rejected.', '(Fin 1) (-1) (Fin 1) !', '_validate'),
  ('C77', 'debye_ok', 'the value is n/x^n times the integral of t^n/(e^t - 1) over (0, x), and lies between x/(e^x - 1) and 1.', '2 3%Z ltac:(lia) !', '_integral'),
  ('C77', 'debye_dec', 'strictly decreasing on [0, inf).', '0 2 3%Z ltac:(lia) ! !', '_decreasing'),
  ('C77', 'debye_0', 'the value at 0 is the limit.', '3%Z ltac:(lia)', '_zero'),
  ('C77', 'debye_inf', 'the value at infinity.', '3%Z ltac:(lia)', '_inf'),
  ('C77', 'debye_bad', 'n < 1 is rejected.', '(Fin 1) 0%Z ltac:(lia)', '_validate'),
  ('C78', 'hermite_ok', 'the value is the probabilists polynomial He_n.', '3%nat 2'),
  ('C79', 'legendre_small', 'n = 1, 2, 3: the nodes are the roots of P_n and the rule is exact for polynomials of degree at most 2n - 1.', '=(fun _ _ => NaN) 3%nat ltac:(lia)', '_exact_partial'),
  ('C79', 'legendre_big', 'n >= 4: n nodes, each a root of P_n, symmetric about 0, each with weight 2/((1 - x^2) P_n\'(x)^2).', '@: exists fr r1 r2 ws, checked_solver1 fr /\\ 0 < r2 < r1 /\\ roots_legendre fr 4 = Ok (map Fin [- r1; - r2; r2; r1], map Fin ws).\nProof. exact P_fun2.leg4_case. Qed.', '_nodes_partial'),
  ('C80', 'sph_rec', 'the three-term recurrence.', '2 3 ! !', '_recurrence'),
  ('C80', 'sph_base', 'the values of order 0 and -1, from which the recurrence gives every integer order.', '3 !', '_base'),
], imports='\nFrom Coq Require Import Lia.\nFrom Verif Require Import SpecFun2 SpecInv.')
disc('gauss_kuzmin', '', [], [], [
  ('C40', 'mode_ok', 'the mode is the smallest maximiser.', ''),
  ('C41', 'mass_ok', 'the support, and the probabilities: non-negative, sum 1, zero at every other integer.', ''),
  ('C42', 'cdf_ok', 'cdf and sf are partial sums, for every integer k.', '3%Z'),
  ('C42', 'cdf_inf', 'at the ends of the real line.', '', '_inf'),
  ('C34', 'log_ok', 'logpmf is the logarithm of pmf at every integer.', ''),
  ('C35', 'invcdf_ok', 'invcdf solves cdf(x) = p on [0, 1); the integers whose cdf reaches p are those not below invcdf(p); invcdf undoes cdf on the support.', '(1/3) !'),
  ('C36', 'invsf_ok', 'invsf solves sf(x) = p on (0, 1]; the integers whose sf is at most p are those not below invsf(p); invsf undoes sf on the support.', '(1/3) !'),
  ('C37', 'ends_ok', 'p outside [0, 1] is rejected, and the upper end is infinity.', '(2) !'),
  ('C37', 'lower_end', 'invcdf(0) and invsf(1) are 0, which is not in the support.', '', '_refuted'),
  ('C43', 'infinite', 'mean and var are infinite: the partial sums of k pmf(k), and of (k - c)^2 pmf(k) for every c, diverge.', '3'),
  ('C43', 'median_ok', 'the median is 2: P(X < 2) and P(X > 2) are both below 1/2.', '', '_median'),
])
