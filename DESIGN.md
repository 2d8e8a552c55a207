# Formal model of mpsci in Coq 8.16

Contents: 1 the model, 2 plan and method per property, 3 trusted base, 4 what is
modelled and what is not, 5 findings (properties the code violates), 6 testing the
theorems against wrong programs.

## 1. What is modelled and how

* **Numbers.** mpmath `mpf` values are modelled by
  `val := Fin (r:R) | PInf | NInf | NaN | Exc (e:exn)` (`Values.v`): exact real
  arithmetic for finite values, mpmath's rules for infinities and nan
  (`0*inf = nan`, `log 0 = -inf`, `x/0` raises `ZeroDivisionError`, `0**0 = 1`, ...),
  and Python exceptions as an absorbing value. A real operation that mpmath would
  answer with a complex number gives `Exc NonReal`; only rel_breitwigner, which uses
  complex square roots and arctangents on purpose, is modelled with pairs (`SFunC.v`).
  *Not modelled:* rounding, with two exceptions. `M_bisect.v` models the bisection of
  `betaincinv` on Flocq's FLX format, where termination depends on rounding; and
  `@mp.extradps(5)`, `mp.extraprec`, ... are modelled as effects on the precision
  state (C27: `M_prec.v`; the table `M_prec_table.v` of all functions is extracted
  from the source by `tools/mkprec.py`).
* **Integers, fractions, lists** (fisher_exact, supports, modes, counts,
  unique_counts, ...) use `Z`, pairs of integers and `list`.
* **Special functions** are modelled by their textbook definitions, which the theorems
  refer to as well (section 3).
* **Solvers.** `mpmath.findroot` is a function argument. The hypothesis made about it is
  named in each theorem: `checked_solver` (1, 2, 3: one, two or three unknowns) says that
  a number it returns is a root, which is what findroot's `verify=True` checks up to a
  tolerance; `bracket_solver` adds that it returns a root whenever the function changes
  sign over the interval. The code's own bracket searches, Newton iterations and
  bisections are modelled step by step with fuel, and the theorems say that enough fuel
  exists.
* **Files.** `M_*.v` only definitions, each citing the lines of `/repo` it mirrors.
  `Spec*.v` the meaning of the laws (cdf/sf pair, inverse, mode, moment, likelihood
  optimum, ...); they do not mention the model. `P_*.v` and `*Lib.v` proofs. `T_*.v` the property
  theorems, each followed by `Print Assumptions` and by an `Example` whose hypotheses
  are met by concrete values. The `T_*.v` files of the distributions are generated from
  `tools/dists.py` by `tools/mkthm.py` and committed; `properties.jsonl` and
  `MANIFEST.json` are generated by `tools/mkprops.py` and `tools/mkmanifest.py`.
* **Names.** `Cnn_<distribution>_<detail>`; suffix `_partial` when the property is proved
  only in part for that function, `_refuted` when the theorem shows that the code
  violates the property.

## 2. Plan per property

| ids | model | proof method |
|---|---|---|
| C01-C04 | `_comb`, `_num_combs`, `fisher_exact` over Z with explicit exceptions | product formula for binomials, Vandermonde, log-concavity => unimodality => early break is sound |
| C05 | `sorted`+`groupby` on lists with a decidable total order | induction on sorted lists |
| C06 | `_median` on lists of R | pairing argument / convexity |
| C07-C11 | means/variance on lists of reals | list induction; AM-GM via exp(x) >= 1+x; Jensen for pmean |
| C12-C15 | pearsonr, pearsonr_ci, anova, chisquare, gtest | Cauchy-Schwarz on lists, algebra, Gibbs inequality |
| C16-C21 | boxcox, yeojohnson, `fun/` | real analysis of exp/ln/Rpower |
| C22-C23, C69-C70 | odds_ratio and its confidence intervals | case analysis; monotonicity of the noncentral hypergeometric tails in the odds ratio; C23 and parts of C22, C70 are refuted |
| C24-C26 | bracket loops, bisection, Newton iterations with fuel | invariants, Archimedean argument, monotone convergence |
| C27-C28 | precision state with context managers; memo table with heap | induction over programs / histories; C28 refuted when the caller mutates |
| C30-C39, C44-C46 | every modelled continuous distribution, branch by branch | per distribution: reduce to a standard density, its antiderivative and their limits (`integral_fn`), derivative and sign arguments (Coquelicot) |
| C40-C43 | discrete distributions, moments of all distributions | ratio test for unimodality, Vandermonde-type identities, telescoping, series; improper integrals, Gamma and Beta integrals, differentiation under the integral |
| C47-C50, C68, C73 | estimators and likelihoods | log inequality, convexity (`ConvMle.v`), list algebra |
| C51-C53 | multivariate | induction over the list of colors; iterated integrals for dirichlet |
| C54 | `_poly_coeffs` | parity + derivative recurrence |
| C55 | truncnorm, every order of moment | integration by parts |
| C56-C68 | as above; these are the places where reading the code suggested a violation | `_refuted` theorem with witness, `_partial` theorem where it does hold |
| C58 | betaprime.invsf(0) | refuted: it returns 1 |
| C61 | studentt.invcdf/invsf | refuted when the bracket search hits the root exactly |
| C71 | digammainv | strict monotonicity of digamma, starting point, checked solver |
| C72 | chi2.invcdf_k, invsf_k | monotonicity of the regularised incomplete gamma function in its shape |
| C74 | marcumq, cmarcumq | Poisson mixtures of gamma densities, Kummer's transformation |
| C75 | boxcox_llf/mle, yeojohnson_llf/mle | profile maximum over mu, sigma; differentiability in lambda |
| C76 | wright_bessel | Gamma bounded below on [beta, inf); comparison with the exponential series |
| C77 | debye (quad) | comparison of improper integrals; sign of the derivative |
| C78 | hermite_e | two-step induction |
| C79 | roots_legendre | n <= 3: exactness on all polynomials; n >= 4: parity of P_n (partial) |
| C80 | spherical_besseli | termwise comparison of the series of I_nu; Gamma at half-integers |

Nothing in the list is inexpressible; properties whose numerical side (rounding,
convergence of mpmath's own solvers) is outside the model say so in MANIFEST.json.

## 3. Trusted base

* Coq 8.16.1's kernel.
* Axioms (the `Print Assumptions` output under each theorem): only those of the
  standard library - `ClassicalDedekindReals.sig_forall_dec`,
  `ClassicalDedekindReals.sig_not_dec`,
  `FunctionalExtensionality.functional_extensionality_dep`, and
  `Classical_Prop.classic` where Reals/Coquelicot lemmas use it. The theorems of
  `T_fisher.v` (integers) and `T_prec.v` (precision state) are closed under the global
  context. No axiom of our own, no `Admitted`, no kernel check disabled. Coquelicot and
  Flocq are used as proved libraries; they bring no further axiom.
* The reading of the Python source (no extraction or execution), and the reading of
  mpmath's special-value rules written down in `Values.v`.
* Exact arithmetic instead of rounded arithmetic (exceptions in section 1).
* **mpmath functions are identified with their mathematical definitions:**
  * `SFun.v`, `M_sfun.v`: gamma, loggamma, digamma (Euler's integral and its
    derivatives), incomplete gamma and beta integrals, erf/erfc/ncdf, `improper`;
    `M_sfun2.v`, `SFun2.v`, `SFun3.v`: Lambert W (inverse of w e^w), E1,
    betainc(a, 0, 0, x), hyp2f1 by Euler's integral, trigamma and
    psi(2), psi(3) as derivatives;
    `M_disc.v`: factorial, binomial, terminating hyp3f2 at 1;
    `SFun4.v`: besseli and hyp1f1 by their series, besseli(0|1, .) also by integrals,
    laguerre(1/2, 0, z) as 1F1; `SFunC.v`: complex sqrt, atan, arg on pairs; cot, atan2 as
    real functions.
  * `M_marcumq.v`: `mp.quad` is the exact improper integral; `M_power_mle.v`: `mp.diff`
    is the derivative; `M_fun2.v`: `mp.nsum` is the exact sum, `mp.hermite` and
    `mp.legendre` the polynomials defined by their recurrences.
  * A value outside the domain for which such a definition is written gives
    `Exc NonReal` or `NaN` in the model; no theorem rests on that value.
* `findroot` meets the hypothesis named in the theorem (`checked_solver*`,
  `bracket_solver`).
* `tools/mkprec.py`, which extracts the precision skeleton of every function for C27,
  reads the source with Python's `ast` module; the generated table is committed.

## 4. What is modelled

* `stats/`: all public functions.
* `fun/`: digammainv, betaincinv (method='bisect' and the dispatch), logbeta,
  logbinomial, logsumexp, marcumq, cmarcumq, pow1pm1 and the inverse power functions, xlogy, xlog1py, boxcox and
  yeojohnson helpers, wright_bessel (real arguments), debye (method='quad', integer n),
  hermite_e (natural n), roots_legendre, spherical_besseli.
  *Not modelled:* faddeevaw, spherical_besselj/y/k, betaincinv(method='findroot'),
  debye(method='nsum').
* `distributions/`: argus, benini, benktander1, benktander2, beta, betabinomial,
  betaprime, binomial, burr12, cauchy, chi, chi2, cosine, dirichlet, exponweib, f,
  fishers_noncentral_hypergeometric, folded_normal, gamma, gamma_gompertz,
  gauss_kuzmin, genexpon, genextreme, genpareto, gompertz, gumbel_max, gumbel_min,
  half_logistic, hypergeometric, hypsecant, invchi2, invgamma, invgauss, kumaraswamy,
  laplace, levy, loggamma, logistic, loglogistic, lognormal, logseries, maxwell,
  multivariate_hypergeometric, nakagami, nct (moments), ncx2, negative_binomial,
  negative_hypergeometric, normal, pareto, poisson, power_normal, rel_breitwigner, rice,
  slash, studentt, trunc_discrete_exp, truncnorm, tukeylambda, uniform, vonmises,
  weibull_max, weibull_min.
  *Not modelled:* genhyperbolic, geninvgauss, multivariate_t, ncf; and inside modelled
  files: nct.pdf/logpdf, invgauss.entropy, gamma._mle_se/_mle_ci/_nll_invhess_diag, the
  censored-data functions of beta, gompertz.var, benktander2.var, exponweib moments.
* Modelled, but without a theorem about the value, or with a weaker one than the
  property asks for (the reason why the general properties C30-C49 are "partial"
  although most distributions are covered in full):
  * no value theorem: gamma_gompertz.mean (general case),
    dirichlet.entropy, genextreme skewness and kurtosis at xi = 0;
  * rice.mode: a critical point of the density, not shown to be the global maximum;
    folded_normal.mode for |mu| > sigma: any positive root returned is the mode;
  * benktander1.mle: the likelihood equations only; betabinomial.mle, boxcox_mle and
    yeojohnson_mle: stationarity only; betaprime.mle with scale and a shape free, and
    loggamma.mle with both free: coordinatewise minima; logseries.mle: starting guess
    abstracted;
  * tukeylambda.cdf for lambda < 0: on the range of the quantile function only;
  * chi2.invcdf_k/invsf_k: uniqueness and correctness of what is returned, not
    success of the search; roots_legendre n >= 4: not exactness;
  * wright_bessel: no theorem for beta <= 0.
* The docstring of debye writes the factor as `n/x**2`; the code uses `n/x**n`, which is
  what the model has and what the rendered documentation says.

## 5. Findings

Each is a machine-checked `_refuted` theorem (file `T_<module>.v`) unless marked "read".

* C04: fisher_exact accepts negative entries. C10: lehmer_mean of order 1/2 returns the
  geometric mean. C22: odds_ratio(kind='sample') raises ZeroDivisionError on a zero
  entry. C23: its odds_ratio_ci always raises TypeError. C70: odds_ratio_ci does not
  terminate at confidence level 1 (and, one-sided, 0).
* C25: the bisection of betaincinv never ends on a bracket around 0. C27: logistic.mle
  lowers the precision of a caller below 15 bits. C28: the noncentral hypergeometric cache
  hands out its own list, so a caller's assignment changes later results.
* C30: cdf/sf at +inf are nan for invgauss, benktander1, benktander2, f; genexpon.cdf
  raises below loc; tukeylambda with lambda < 0 raises ZeroDivisionError at -inf/+inf.
* C38 (read): the message of `_validate_loc_scale` (_common.py:26) is the plain string
  `'f{scale_name} must be positive.'`; the `f` is inside the quotes. The ValueError is
  raised as it should be; messages are not modelled.
* C32: ncx2.pdf(x, k, 0) raises ZeroDivisionError.
* C34, C65: logpdf is nan at an end of the support for gamma (k = 1), chi2 (k = 2), chi
  (k = 1), exponweib (a = 1 or c = 1), genpareto (xi = -1), genextreme, kumaraswamy;
  folded_normal.logpdf(+inf) is nan; negative_hypergeometric.logpmf.
  C56: genexpon.logpdf omits -log(scale). C62: binomial.logpmf differs from log pmf.
* C36, C64: maxwell.invsf falls back to solving cdf; invcdf(0) and invsf(1) are 0, not loc.
* C37: wrong or missing value at p = 0 or 1, or p not validated: levy, cauchy, burr12,
  pareto, benini, gamma_gompertz, laplace, benktander2, genextreme, f, gauss_kuzmin;
  C58: betaprime.invsf(0) = 1.
* C38, C41: parameters not validated: benktander2, loggamma (at p = 0, 1), negative_binomial,
  ncx2, binomial, trunc_discrete_exp (n = 0), logseries (p = 0, 1), multivariate_hypergeometric.
* C39: mode outside the documented range of parameters: f (dfn <= 2), nakagami (not real),
  genextreme. C59, C60: negative_binomial and negative_hypergeometric modes.
* C42, C63: hypergeometric cdf/sf and second moments; C51: multivariate_hypergeometric.support.
* C43: studentt.mean = 0 for df <= 1, slash.mean = 0 although neither exists; nct.mean not
  real for nc < 0; tukeylambda first and second moments; genextreme moments; vonmises
  with kappa < 0.
* C46: beta.interval_prob(-1, 2, 1, 1) = 3; gamma.interval_prob with a negative end.
* C47: pareto.mle ignores loc; gompertz.mle on all-zero data; beta.mle on constant data
  (ZeroDivisionError). C68: binomial.mle with counts.
* C57: levy.support takes an extra parameter. C61: studentt.invcdf/invsf have the wrong
  sign when the bracket search hits the root. C66: lognormal.sf raises AttributeError for
  x <= 0. C67: normal.nll defaults to mu = 1.
* Read, not proved: betaprime.pdf(+inf) = nan for a > 1; binomial.sf lacks k == n;
  betabinomial skewness/kurtosis at n = 0 and gumbel/pareto mle on constant data raise
  ZeroDivisionError; support() with a float n raises TypeError; gamma.nll accepts x = 0;
  rice.pdf(+inf) = nan; the `method=` keyword of findroot in benktander1, burr12, logseries is
  ignored.

## 6. Testing the theorems against wrong programs

`seeded/gen.py` draws edits of the definitions in `M_*.v` (changed operators, constants,
branches, swapped arguments, dropped terms), `seeded/mutate.py` rebuilds a scratch copy
with each edit and records which theorems fail. `seeded/LOG.jsonl` has one line per
attempt, with the theorems tightened afterwards. Edits that survived and were judged
equivalent, or that hit one of the weaker theorems listed in section 4, are marked so.
