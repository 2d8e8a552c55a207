"""Writes /verif/properties.jsonl from the table below (one place to edit it)."""
import json
P = []
def prop(id, title, statement, quantifier, why, anchors):
    P.append(dict(id=id, title=title, statement=statement, quantifier=quantifier,
                  why_tests_cant=why, anchors=anchors))

# ---------------------------------------------------------------- stats: exact integer code
prop("C01", "fisher_exact two-sided p-value is the exact sum over all not-more-probable tables",
 "For a 2x2 table of nonnegative integers, fisher_exact(table)[1] equals the sum, over every table with the same row and column sums whose hypergeometric probability does not exceed the probability of the given table, of that probability (as an exact fraction). The two early-exit loops never skip a table that should be counted and never count one twice.",
 "all 2x2 tables of nonnegative integers of any size",
 "The early break in the two scanning loops is only right because the hypergeometric weights are unimodal; that is a statement about all sizes of tables, not about sampled ones.",
 ["mpsci/stats/_fisher_exact.py:_comb", "mpsci/stats/_fisher_exact.py:_num_combs", "mpsci/stats/_fisher_exact.py:fisher_exact"])
prop("C02", "fisher_exact one-sided p-values are the exact hypergeometric tails",
 "fisher_exact(table, 'greater')[1] is P(A >= a) and fisher_exact(table, 'less')[1] is P(A <= a) for the hypergeometric law fixed by the margins; the two add up to 1 + P(A = a).",
 "all 2x2 tables of nonnegative integers",
 "Needs Vandermonde's identity for the normalisation, for every margin.",
 ["mpsci/stats/_fisher_exact.py:fisher_exact", "mpsci/stats/_fisher_exact.py:_num_combs"])
prop("C03", "fisher_exact always returns a probability, and respects the symmetries of the table",
 "For a table of nonnegative integers no exception is raised, the p-value p satisfies 0 < p <= 1, the two-sided value does not change under transposition, row swap or column swap, and swapping the columns exchanges 'greater' and 'less'.",
 "all 2x2 tables of nonnegative integers and all three alternatives",
 "Absence of exceptions (division by zero, unbound loop variable on an empty range) and the symmetries must hold for every table.",
 ["mpsci/stats/_fisher_exact.py:fisher_exact"])
prop("C04", "fisher_exact odds ratio cases and rejection of unknown alternatives",
 "The first result is the exact fraction a*d/(b*c) when b*c is nonzero, +inf when only a*d is nonzero, nan when both vanish; any other alternative string raises ValueError.",
 "all integer tables and all alternative strings",
 "Case split must be exhaustive for all integers.",
 ["mpsci/stats/_fisher_exact.py:fisher_exact"])
prop("C05", "unique_counts returns the sorted distinct values with exact multiplicities",
 "For a nonempty sequence, unique_counts(x) = (values, counts) where values is strictly increasing, contains exactly the elements of x, counts[i] is the number of occurrences of values[i], and the result depends only on the multiset x; for an empty sequence it raises ValueError.",
 "all finite sequences of totally ordered values and all their permutations",
 "Quantifies over sequences of all lengths and all permutations.",
 ["mpsci/stats/_basic.py:unique_counts"])
prop("C06", "the median used by the estimators splits the data in half and minimises absolute deviation",
 "_median(x) (used by laplace.mle and laplace.mom) has at least half of the data on each side, does not depend on the order of x, and minimises c -> sum |x_i - c|; on an empty sequence it returns 0.",
 "all finite nonempty sequences of reals, all c",
 "Optimality is over all real c and all data.",
 ["mpsci/distributions/_common.py:_median", "mpsci/distributions/laplace.py:mle"])
# ---------------------------------------------------------------- stats: real
prop("C07", "mean: bounds, equivariance, errors",
 "mean(x) lies between min(x) and max(x) (also with nonnegative weights), mean(a*x+b)=a*mean(x)+b, integer weights are repetition; mean raises ValueError when lengths differ and ZeroDivisionError when x is empty or the weights sum to zero.",
 "all finite sequences of reals and weights",
 "Bounds must hold for all sequences.",
 ["mpsci/stats/_basic.py:mean"])
prop("C08", "ordering of the means",
 "For positive data: min(x) <= hmean(x) <= gmean(x) <= mean(x) <= max(x), with and without positive weights; equality throughout for constant data.",
 "all finite nonempty sequences of positive reals, all positive weights",
 "An inequality over all data sets.",
 ["mpsci/stats/_basic.py:hmean", "mpsci/stats/_basic.py:gmean", "mpsci/stats/_basic.py:mean"])
prop("C09", "pmean: the special cases are the members of one increasing family",
 "pmean(x, p) for positive data is (mean(x**p))**(1/p) for p not in {0, 1, -1, inf, -inf}; the values returned at p = 1 and p = -1 agree with that formula, the values at +inf and -inf are max and min, it is homogeneous of degree 1, lies in [min, max] and is non-decreasing in p.",
 "all finite nonempty sequences of positive reals, all real p and p = +-inf",
 "Monotonicity in p is a two-parameter inequality over all data.",
 ["mpsci/stats/_basic.py:pmean"])
prop("C10", "lehmer_mean special cases agree with sum(x**p)/sum(x**(p-1))",
 "For positive data lehmer_mean(x, p) equals sum(x**p)/sum(x**(p-1)) for every finite p, including the special-cased p = 0, 1/2 and 1.",
 "all finite nonempty sequences of positive reals, all real p",
 "The shortcut at p = 1/2 (geometric mean) is only right for two values; the tests use lengths and tolerances where this is visible only for chosen data.",
 ["mpsci/stats/_basic.py:lehmer_mean"])
prop("C11", "var and std: non-negativity, zero iff constant, shift and scale laws",
 "var(x) >= 0 and is 0 exactly when all values are equal; var(x+b)=var(x); var(a*x)=a^2*var(x); var(x)=mean(x^2)-mean(x)^2; std(x)^2=var(x); n == ddof raises ZeroDivisionError.",
 "all finite sequences of reals, ddof < n",
 "Universally quantified algebra over all data.",
 ["mpsci/stats/_basic.py:var", "mpsci/stats/_basic.py:std", "mpsci/stats/_basic.py:variation"])
prop("C12", "pearsonr: range, symmetry, affine invariance, degenerate inputs",
 "For two sequences of equal length n >= 3, neither constant, r is in [-1, 1], r(x,y) = r(y,x), r(a*x+b,y) = sign(a)*r(x,y), |r|=1 for affinely related data; constant data gives (nan, nan); length 2 gives (+-1, 1); different lengths or unknown alternative raise ValueError.",
 "all pairs of finite real sequences",
 "Cauchy-Schwarz over all data; no division by zero for any accepted data.",
 ["mpsci/stats/_pearsonr.py:pearsonr"])
prop("C13", "pearsonr_ci contains r and stays inside [-1, 1]",
 "For -1 < r < 1, n > 3 and 0 < alpha < 1 the two-sided interval satisfies -1 < low <= r <= high < 1, a smaller alpha gives a wider interval, and one-sided intervals have the other end at -1 or 1.",
 "all r in (-1,1), n > 3, alpha in (0,1), any strictly increasing odd-symmetric normal quantile",
 "Continuous range of parameters.",
 ["mpsci/stats/_pearsonr.py:pearsonr_ci"])
prop("C14", "anova_oneway: sum-of-squares decomposition and invariances",
 "The F statistic is (between-group mean square)/(within-group mean square) where the within-group sum of squares, computed by subtraction, equals sum_g sum_i (x_gi - mean_g)^2; F >= 0; F is unchanged when a constant is added to all data, when all data are multiplied by a nonzero constant, and when groups are permuted.",
 "all families of at least two nonempty groups of reals with nonzero within-group variation",
 "Identity over all shapes of data.",
 ["mpsci/stats/_anova.py:anova_oneway"])
prop("C15", "chisquare and gtest statistics are non-negative and vanish only for a perfect fit",
 "For positive expected values and equal totals, both statistics are >= 0 and are 0 exactly when observed = expected; totals that differ by more than the tolerance raise ValueError.",
 "all finite sequences of nonnegative observed and positive expected frequencies",
 "Gibbs' inequality over all data.",
 ["mpsci/stats/_goftests.py:chisquare", "mpsci/stats/_goftests.py:gtest"])
prop("C16", "Box-Cox transforms round-trip and are increasing",
 "inv_boxcox(boxcox(x, l), l) = x for x > 0; boxcox(inv_boxcox(y, l), l) = y whenever l*y > -1; boxcox1p(x,l) = boxcox(1+x,l); both transforms are strictly increasing in x; outside the range inverse raises ValueError.",
 "all real lambda, all x in the domain",
 "Continuous range of parameters, with a case split at lambda = 0.",
 ["mpsci/stats/_boxcox.py:boxcox", "mpsci/stats/_boxcox.py:boxcox1p", "mpsci/stats/_boxcox.py:inv_boxcox", "mpsci/stats/_boxcox.py:inv_boxcox1p"])
prop("C17", "Yeo-Johnson transform round-trips, preserves sign and is increasing",
 "inv_yeojohnson(yeojohnson(x, l), l) = x for every real x and l; yeojohnson(x, l) has the sign of x and is strictly increasing in x; yeojohnson(-x, 2-l) = -yeojohnson(x, l).",
 "all real x and lambda",
 "Four-way case split over a continuous range.",
 ["mpsci/stats/_yeojohnson.py:yeojohnson", "mpsci/stats/_yeojohnson.py:inv_yeojohnson"])
# ---------------------------------------------------------------- fun
prop("C18", "xlogy and xlog1py conventions",
 "xlogy(x,y) = x*log(y), with value 0 when x = 0 for every y that is not nan (including y = 0, inf and negative y), nan when either argument is nan; xlog1py(x,y) = xlogy(x,1+y).",
 "all extended-real x and y including nan",
 "Special values must be right in every combination.",
 ["mpsci/fun/_xlogy.py:xlogy", "mpsci/fun/_xlogy.py:xlog1py"])
prop("C19", "pow1pm1 and the inverse power functions are mutually inverse",
 "pow1pm1(x,y) = (1+x)^y - 1 for x > -1; inv_pow1pm1(pow1pm1(x,y),y) = x; inv_powm1(x^y - 1, y) = x for x > 0; the inverses raise ValueError exactly when y = 0 or t <= -1.",
 "all real x > -1, y != 0, t",
 "Continuous range.",
 ["mpsci/fun/_powm1.py:pow1pm1", "mpsci/fun/_powm1.py:inv_powm1", "mpsci/fun/_powm1.py:inv_pow1pm1"])
prop("C20", "logsumexp equals log(sum(w*exp(x))) and never exponentiates a positive number",
 "logsumexp(logs, weights) = log(sum_i w_i exp(logs_i)) for every nonempty list of reals with positive weighted sum; adding a constant to all inputs adds it to the result; max <= result <= max + log n in the unweighted case; every argument passed to exp is <= 0; empty input raises ValueError.",
 "all finite lists of reals and weights",
 "Quantifies over all lists.",
 ["mpsci/fun/_logsumexp.py:logsumexp"])
prop("C21", "logbinomial and logbeta: exact combinatorial meaning, symmetry and recurrences",
 "exp(logbinomial(n,k)) is the binomial coefficient C(n,k) for integers 0 <= k <= n; logbinomial(n,k) = logbinomial(n,n-k); ValueError exactly when n < 0, k < 0 or k > n; logbeta is symmetric and satisfies B(x+1,y) = B(x,y)*x/(x+y); multivariate_logbeta on two entries is logbeta.",
 "all integers 0 <= k <= n, all positive reals x, y, for any log-gamma satisfying the functional equation",
 "All sizes.",
 ["mpsci/fun/_logbinomial.py:logbinomial", "mpsci/fun/_logbeta.py:logbeta", "mpsci/fun/_logbeta.py:multivariate_logbeta"])
prop("C22", "odds_ratio: degenerate tables, extreme tables and rejection of bad input",
 "odds_ratio raises ValueError for unknown kind/alternative, non-2x2 shapes and negative entries; returns odds ratio nan, p-value 1 and interval (0, inf) when a row or column is zero; kind='conditional' returns 0 or inf exactly when the table is at an end of the hypergeometric support; kind='sample' returns a*d/(b*c).",
 "all tables of nonnegative integers, all kinds and alternatives",
 "Exhaustive case analysis over all tables.",
 ["mpsci/stats/_odds_ratio.py:odds_ratio", "mpsci/stats/_odds_ratio.py:_sample_odds_ratio", "mpsci/stats/_odds_ratio.py:_conditional_oddsratio", "mpsci/stats/_odds_ratio.py:_row_or_column_zero"])
prop("C23", "odds_ratio(kind='sample').odds_ratio_ci returns an interval around the sample odds ratio",
 "For a table of positive integers and 0 < confidence_level < 1, odds_ratio(table, kind='sample').odds_ratio_ci(confidence_level) returns low <= odds ratio <= high.",
 "all tables of positive integers, all confidence levels",
 "The failing path is never reached by the shipped tests.",
 ["mpsci/stats/_odds_ratio.py:_sample_odds_ratio_ci"])
# ---------------------------------------------------------------- numerical inversion
prop("C24", "the bracket search used by the numeric inverses terminates and contains the solution",
 "For every monotone function whose range straddles p, the search for a starting bracket used by the numeric invcdf/invsf functions terminates, and the interval it returns contains a solution of func(x) = p; when it returns a degenerate interval that point is an exact solution.",
 "all increasing or decreasing functions on (-inf,inf), (a,inf), (-inf,b), [a,b] or (0,inf), all p strictly inside the range, all numbers of refinement steps",
 "Quantifies over functions; termination cannot be tested.",
 ["mpsci/distributions/_common.py:_find_bracket", "mpsci/distributions/_common.py:_find_bracket_by_expansion_neginf_inf", "mpsci/distributions/_common.py:_find_bracket_by_expansion_0_inf", "mpsci/distributions/_common.py:_generic_inv"])
prop("C25", "betaincinv(method='bisect') keeps a sign change and only stops at a root or at adjacent numbers",
 "The bisection keeps func(x0) and func(x1) of opposite sign with x0 <= x1 inside the start bracket; it returns an end point exactly when func vanishes there, raises when the signs agree, and with midpoints rounded to any finite precision it terminates, at a zero of func or at one of two neighbouring representable numbers between which func changes sign.",
 "all functions and start brackets, all floating-point grids",
 "Loop with no bound in the source.",
 ["mpsci/fun/_inv_reg_inc_beta.py:mp_bisect", "mpsci/fun/_inv_reg_inc_beta.py:betaincinv"])
prop("C26", "the Newton iterations in invgamma and invgauss converge from the mode for every p",
 "Starting at the mode, the unsafeguarded Newton iterations used by invgamma.invcdf/invsf (and invgauss) stay inside the support, move monotonically towards the quantile, never cross it, never divide by zero, and the loop stops after finitely many steps.",
 "all differentiable cdfs with a density increasing before the mode and decreasing after it, all p in (0,1)",
 "The source carries a FIXME about a potentially infinite loop; only a proof settles it.",
 ["mpsci/distributions/invgamma.py:invcdf", "mpsci/distributions/invgamma.py:invsf", "mpsci/distributions/invgauss.py"])
# ---------------------------------------------------------------- state
prop("C27", "every public call leaves the global mpmath precision unchanged",
 "After any sequence of mpsci calls, returning normally or raising, mp.prec has the value it had before, and inside the call precision is never lower than the caller's.",
 "all call sequences and all exception points",
 "Exception points and nesting are unbounded.",
 ["mpsci/distributions", "mpsci/stats/_basic.py", "mpsci/distributions/_common.py:_generic_inv"])
prop("C28", "fishers_noncentral_hypergeometric results do not depend on the call history",
 "pmf, cdf, sf, mean and support_pmf return, for given arguments and precision, the same values after any history of earlier calls, evictions and uses of earlier results.",
 "all call histories, including histories in which the caller modifies a list it received",
 "History-dependence through the memo table.",
 ["mpsci/distributions/fishers_noncentral_hypergeometric.py:_support_pmf", "mpsci/distributions/fishers_noncentral_hypergeometric.py:support_pmf"])
# ---------------------------------------------------------------- distribution laws
prop("C30", "cdf and sf are complementary probabilities",
 "For every valid parameter choice and every x (finite, -inf or +inf), 0 <= cdf(x) <= 1 and cdf(x) + sf(x) = 1, without exceptions or nan, for the closed-form continuous distributions.",
 "all x in the extended reals and all valid parameters, per distribution",
 "Continuous domain with case splits at support ends.",
 ["mpsci/distributions/*.py:cdf", "mpsci/distributions/*.py:sf"])
prop("C31", "cdf is non-decreasing and goes from 0 to 1",
 "x <= y implies cdf(x) <= cdf(y); cdf is 0 at and below the lower support end and 1 at +inf.",
 "all pairs x <= y and all valid parameters",
 "Two-point inequality over a continuum.",
 ["mpsci/distributions/*.py:cdf"])
prop("C32", "pdf is the derivative of cdf",
 "At every interior point of the support pdf(x) is the derivative of cdf at x; outside the support pdf(x) = 0 (hence pdf integrates to 1).",
 "all interior points and all valid parameters",
 "An identity between functions.",
 ["mpsci/distributions/*.py:pdf", "mpsci/distributions/*.py:cdf"])
prop("C33", "pdf is non-negative and integrates to 1",
 "pdf(x) >= 0 everywhere and the integral of pdf over its support is 1.",
 "all valid parameters",
 "Improper integrals for all parameters.",
 ["mpsci/distributions/*.py:pdf"])
prop("C34", "logpdf is the logarithm of pdf",
 "exp(logpdf(x)) = pdf(x) for every x, with logpdf(x) = -inf exactly where pdf(x) = 0.",
 "all x and all valid parameters",
 "Two separately written formulas must agree everywhere, including at the ends of the support.",
 ["mpsci/distributions/*.py:logpdf", "mpsci/distributions/*.py:pdf"])
prop("C35", "invcdf inverts cdf",
 "cdf(invcdf(p)) = p for every p in (0,1), the value lies inside the support, and invcdf(cdf(x)) = x for every x in the interior of the support.",
 "all p in (0,1), all interior x, all valid parameters",
 "Continuum.",
 ["mpsci/distributions/*.py:invcdf"])
prop("C36", "invsf inverts sf",
 "sf(invsf(p)) = p for every p in (0,1), invsf(sf(x)) = x in the interior of the support, and invsf(p) = invcdf(1-p).",
 "all p in (0,1), all interior x, all valid parameters",
 "Continuum.",
 ["mpsci/distributions/*.py:invsf"])
prop("C37", "invcdf and invsf reject p outside [0,1] and map 0 and 1 to the ends of the support",
 "p < 0 or p > 1 raises ValueError; invcdf(0) = invsf(1) = lower end, invcdf(1) = invsf(0) = upper end of the support.",
 "all p and all valid parameters",
 "Boundary behaviour per distribution.",
 ["mpsci/distributions/*.py:invcdf", "mpsci/distributions/*.py:invsf", "mpsci/distributions/_common.py:_validate_p"])
prop("C38", "invalid parameters always raise ValueError",
 "Every function of a distribution raises ValueError, whatever the other arguments, when a scale or shape parameter is outside its documented domain.",
 "all x, p and all invalid parameter values",
 "All invalid values, all functions.",
 ["mpsci/distributions/*.py:_validate_params", "mpsci/distributions/_common.py:_validate_loc_scale"])
prop("C39", "mode maximises the density (continuous distributions)",
 "pdf(mode) >= pdf(x) for every x, and the mode lies in the closed support, for the distributions with a closed-form mode.",
 "all x and all valid parameters",
 "Global optimality over a continuum.",
 ["mpsci/distributions/*.py:mode"])
prop("C40", "mode maximises the probability mass function (discrete distributions), with the documented tie rule",
 "The returned integer is in the support, no point has larger probability, and among several maximisers it is the documented one (smallest for binomial, poisson, hypergeometric, negative_hypergeometric, betabinomial, negative_binomial; largest for fishers_noncentral_hypergeometric).",
 "all valid parameters, all support points",
 "All sizes; ties are measure zero and never hit by sampling.",
 ["mpsci/distributions/binomial.py:mode", "mpsci/distributions/poisson.py:mode", "mpsci/distributions/hypergeometric.py:mode", "mpsci/distributions/betabinomial.py:mode", "mpsci/distributions/negative_hypergeometric.py:mode", "mpsci/distributions/negative_binomial.py:mode", "mpsci/distributions/fishers_noncentral_hypergeometric.py:mode"])
prop("C41", "discrete pmf sums to 1 over the support and vanishes outside",
 "The sum of pmf(k) over support(...) is 1 (finite supports) or the partial sums converge to 1 (infinite supports).",
 "all valid parameters",
 "Sums of unbounded length.",
 ["mpsci/distributions/hypergeometric.py:pmf", "mpsci/distributions/negative_hypergeometric.py:pmf", "mpsci/distributions/binomial.py:pmf", "mpsci/distributions/betabinomial.py:pmf", "mpsci/distributions/trunc_discrete_exp.py:pmf", "mpsci/distributions/gauss_kuzmin.py:pmf", "mpsci/distributions/poisson.py:pmf"])
prop("C42", "discrete cdf and sf are the partial sums of pmf",
 "cdf(k) = sum_{j<=k} pmf(j) and sf(k) = 1 - cdf(k) for the discrete distributions with closed-form or summed cdf.",
 "all k and all valid parameters",
 "Sums of unbounded length.",
 ["mpsci/distributions/gauss_kuzmin.py:cdf", "mpsci/distributions/trunc_discrete_exp.py:cdf", "mpsci/distributions/fishers_noncentral_hypergeometric.py:cdf", "mpsci/distributions/binomial.py:cdf"])
prop("C43", "closed-form moments are the moments of the distribution",
 "mean, var (and noncentral_moment where given) equal the corresponding sum or integral against pmf/pdf.",
 "all valid parameters",
 "Sums and integrals for all parameters.",
 ["mpsci/distributions/uniform.py:noncentral_moment", "mpsci/distributions/hypergeometric.py:mean", "mpsci/distributions/binomial.py", "mpsci/distributions/trunc_discrete_exp.py:mean", "mpsci/distributions/beta.py:noncentral_moment"])
prop("C44", "location and scale act as documented",
 "cdf(loc + scale*z, loc, scale) = cdf(z, 0, 1), pdf(loc + scale*z, loc, scale) = pdf(z, 0, 1)/scale, invcdf(p, loc, scale) = loc + scale*invcdf(p, 0, 1).",
 "all z, loc, scale > 0 and all valid shape parameters",
 "Continuum.",
 ["mpsci/distributions/*.py"])
prop("C45", "family identities between distributions",
 "gumbel_min is the reflection of gumbel_max, weibull_max of weibull_min; genextreme with xi=0 is gumbel_max, exponweib with a=1 is weibull_min, loglogistic is burr12 with d=1, chi2 is gamma, and so on.",
 "all x and all valid parameters",
 "Separately written formulas must agree everywhere.",
 ["mpsci/distributions/gumbel_min.py", "mpsci/distributions/gumbel_max.py", "mpsci/distributions/weibull_min.py", "mpsci/distributions/weibull_max.py", "mpsci/distributions/genextreme.py", "mpsci/distributions/exponweib.py"])
prop("C46", "interval_prob is the probability of the interval",
 "interval_prob(x1, x2) = cdf(x2) - cdf(x1) for every x1 <= x2.",
 "all x1 <= x2 and parameters",
 "Continuum with a case split on signs.",
 ["mpsci/distributions/laplace.py:interval_prob", "mpsci/distributions/normal.py:interval_prob"])
prop("C47", "closed-form maximum likelihood estimates are global optima",
 "For every data set (with counts where supported), the parameters returned by mle minimise nll over all admissible parameters of the free kind.",
 "all data sets, all competing parameter values",
 "Global optimality over data and parameters.",
 ["mpsci/distributions/normal.py:mle", "mpsci/distributions/uniform.py:mle", "mpsci/distributions/laplace.py:mle", "mpsci/distributions/poisson.py:mle", "mpsci/distributions/binomial.py:mle", "mpsci/distributions/pareto.py:mle", "mpsci/distributions/gumbel_max.py:mle", "mpsci/distributions/gamma.py:mle", "mpsci/distributions/lognormal.py:mle", "mpsci/distributions/negative_binomial.py:mle"])
prop("C48", "method-of-moments estimates reproduce the sample moments",
 "After par = dist.mom(x), dist.mean(*par) equals the sample mean and dist.var(*par) the sample variance.",
 "all data sets for which mom returns",
 "All data.",
 ["mpsci/distributions/uniform.py:mom", "mpsci/distributions/laplace.py:mom", "mpsci/distributions/logistic.py:mom", "mpsci/distributions/gamma.py:mom", "mpsci/distributions/beta.py:mom", "mpsci/distributions/gumbel_max.py:mom", "mpsci/distributions/lognormal.py:mom"])
prop("C49", "nll is minus the sum of logpdf, and counts mean repetition",
 "nll(x, ...) = -sum_i logpdf(x_i, ...) and nll(x, counts=c) = nll of the sequence with x_i repeated c_i times; bad counts raise ValueError.",
 "all data sets, counts and valid parameters",
 "All data.",
 ["mpsci/distributions/gamma.py:nll", "mpsci/distributions/gumbel_max.py:nll", "mpsci/distributions/poisson.py:nll", "mpsci/distributions/_common.py:_validate_counts"])
prop("C50", "gamma.nll_grad, nll_hess and nll_invhess are the gradient, Hessian and inverse Hessian of nll",
 "nll_grad is the gradient of nll in (k, scale), nll_hess its Hessian, and nll_invhess*nll_hess is the identity whenever it is defined.",
 "all data and parameters, any digamma/trigamma that are the derivatives of loggamma",
 "Identity over all data.",
 ["mpsci/distributions/gamma.py:nll_grad", "mpsci/distributions/gamma.py:nll_hess", "mpsci/distributions/gamma.py:nll_invhess"])
prop("C51", "multivariate_hypergeometric.support enumerates every outcome exactly once",
 "The generator yields, in lexicographic order and without repetition, exactly the vectors k with 0 <= k_i <= colors_i and sum(k) = nsample.",
 "all lists of nonnegative colors and all nsample",
 "Recursion of unbounded depth.",
 ["mpsci/distributions/multivariate_hypergeometric.py:support", "mpsci/distributions/multivariate_hypergeometric.py:_support_gen"])
prop("C52", "multivariate_hypergeometric pmf, mean and covariance are consistent",
 "pmf sums to 1 over support; mean(colors, nsample) sums to nsample; every row of cov sums to 0; cov is symmetric.",
 "all lists of colors, all nsample <= sum(colors)",
 "Generalised Vandermonde identity for all sizes.",
 ["mpsci/distributions/multivariate_hypergeometric.py:pmf", "mpsci/distributions/multivariate_hypergeometric.py:mean", "mpsci/distributions/multivariate_hypergeometric.py:cov"])
prop("C53", "dirichlet mean and covariance are consistent",
 "mean(alpha) is a probability vector; cov(alpha) is symmetric, has non-negative diagonal and every row sums to 0; invalid alpha raises ValueError.",
 "all vectors alpha of positive reals",
 "All dimensions.",
 ["mpsci/distributions/dirichlet.py"])
prop("C54", "the polynomial coefficients used for nct moments are the derivatives of exp(x^2/2)",
 "For every k the cached coefficient list is that of the polynomial exp(-x^2/2) * d^k/dx^k exp(x^2/2).",
 "all k",
 "Recursion of unbounded depth.",
 ["mpsci/distributions/nct.py:_poly_coeffs"])
prop("C55", "truncnorm probabilities and moments",
 "For a < b, cdf, sf and pdf of truncnorm are those of the normal law conditioned on [a,b], and the moment recurrence returns the true moments.",
 "all a < b, x, k",
 "Recurrence of unbounded depth, integrals.",
 ["mpsci/distributions/truncnorm.py"])
# ---------------------------------------------------------------- violations
prop("C56", "genexpon.logpdf is the logarithm of genexpon.pdf",
 "exp(genexpon.logpdf(x, a, b, c, loc, scale)) = genexpon.pdf(x, a, b, c, loc, scale).",
 "all x >= loc and valid parameters", "scale = 1 in the tests hides a missing -log(scale).",
 ["mpsci/distributions/genexpon.py:logpdf"])
prop("C57", "levy.support can be called with the parameters of the distribution",
 "levy.support(mu, sigma) returns (mu, inf).", "all mu, sigma > 0", "Signature error not covered.",
 ["mpsci/distributions/levy.py:support"])
prop("C58", "betaprime.invsf(0) is the upper end of the support",
 "betaprime.invsf(0, a, b, scale) = +inf.", "all valid parameters", "Boundary.",
 ["mpsci/distributions/betaprime.py:invsf"])
prop("C59", "negative_binomial.mode lies in the support",
 "negative_binomial.mode(r, p) >= 0 for every accepted r, p.", "all accepted r, p", "Boundary p = 0 and p = 1.",
 ["mpsci/distributions/negative_binomial.py:mode"])
prop("C60", "negative_hypergeometric.mode returns for all valid parameters",
 "negative_hypergeometric.mode(ntotal, ngood, untilnbad) returns a maximiser of pmf for all valid parameters.",
 "all valid parameters", "One-parameter family of corner cases (a single bad item).",
 ["mpsci/distributions/negative_hypergeometric.py:mode"])
prop("C61", "studentt.invcdf has the right sign",
 "studentt.invcdf(p, df) > 0 for p > 1/2.", "all p in (1/2,1), df > 0", "Needs the bracket search to hit the root exactly.",
 ["mpsci/distributions/studentt.py:invcdf"])
prop("C62", "binomial.logpmf is the logarithm of binomial.pmf",
 "exp(logpmf(k,n,p)) = pmf(k,n,p) for 0 <= k <= n and 0 <= p <= 1.", "all n, k, p", "Boundary p in {0,1}: 0*log(0).",
 ["mpsci/distributions/binomial.py:logpmf"])
prop("C63", "hypergeometric and multivariate_hypergeometric second moments exist for every valid parameter",
 "var/cov return (a number) for all valid parameters.", "all valid parameters", "Corner ntotal = 1.",
 ["mpsci/distributions/hypergeometric.py:var", "mpsci/distributions/multivariate_hypergeometric.py:cov"])
prop("C64", "maxwell and nakagami inverse functions respect loc",
 "invcdf(0) = invsf(1) = loc and invcdf inverts cdf for every loc.", "all loc, scale, p", "Tests use loc = 0.",
 ["mpsci/distributions/maxwell.py:invcdf", "mpsci/distributions/maxwell.py:invsf", "mpsci/distributions/nakagami.py:invcdf"])
prop("C65", "logpdf at the lower end of the support agrees with pdf there",
 "exp(logpdf(x)) = pdf(x) also at x equal to an end of the support (chi, chi2, gamma, kumaraswamy, exponweib, genpareto, genextreme).",
 "all valid parameters, x at the support end", "0*log(0) corner cases.",
 ["mpsci/distributions/chi.py:logpdf", "mpsci/distributions/chi2.py:logpdf", "mpsci/distributions/gamma.py:logpdf", "mpsci/distributions/kumaraswamy.py:logpdf", "mpsci/distributions/genpareto.py:logpdf", "mpsci/distributions/genextreme.py:logpdf"])
prop("C66", "lognormal.sf returns 1 for x <= 0",
 "lognormal.sf(x, mu, sigma) = 1 for every x <= 0.", "all x <= 0", "Branch never executed by the tests.",
 ["mpsci/distributions/lognormal.py:sf"])
prop("C67", "normal.nll defaults agree with normal.logpdf defaults",
 "normal.nll(x) = -sum(normal.logpdf(t) for t in x).", "all data", "Default arguments not covered.",
 ["mpsci/distributions/normal.py:nll"])
prop("C68", "binomial.mle with counts and fixed p is a maximiser",
 "binomial.mle(x, p=p, counts=c)[0] minimises nll over n.", "all data and counts", "Counts are ignored on one path.",
 ["mpsci/distributions/binomial.py:mle"])
prop("C69", "the conditional odds ratio interval has exact coverage",
 "For fixed margins and any true odds ratio theta, the noncentral hypergeometric probability of the tables whose odds_ratio(...).odds_ratio_ci(level) interval contains theta is at least level; the limits are the odds ratios at which the observed count has tail probability (1-level)/2 (two-sided) or 1-level (one-sided), with 0 or inf at the ends of the support.",
 "all margins, all odds ratios, all levels strictly between 0 and 1, all alternatives",
 "A coverage guarantee quantifies over the true parameter and sums over all tables.",
 ["mpsci/stats/_odds_ratio.py:_conditional_oddsratio_ci", "mpsci/stats/_odds_ratio.py:_ci_lower", "mpsci/stats/_odds_ratio.py:_ci_upper", "mpsci/stats/_odds_ratio.py:_solve"])
prop("C70", "odds_ratio_ci returns an interval for every accepted confidence level",
 "For kind='conditional', odds_ratio_ci(level) returns an interval for every level it does not reject, i.e. for 0 <= level <= 1.",
 "all tables of nonnegative integers, all levels in [0, 1], all alternatives",
 "Termination of an unbounded search cannot be tested.",
 ["mpsci/stats/_odds_ratio.py:odds_ratio_ci", "mpsci/stats/_odds_ratio.py:_solve"])

prop("C71", "digammainv(y) is the positive solution of digamma(x) = y",
 "For every real y the equation digamma(x) = y has exactly one solution x > 0, and digammainv(y) returns no other number.",
 "all real y, whatever the root finder does before its result passes the check",
 "Continuum; uniqueness of the solution is a theorem about digamma.",
 ["mpsci/fun/_digammainv.py:digammainv"])

prop("C72", "chi2.invcdf_k and invsf_k solve for the degrees of freedom",
 "For x > 0 and 0 < p < 1 there is exactly one k > 0 with chi2.cdf(x, k) = p; invcdf_k(x, p) returns it, and invsf_k(x, p) returns the one with sf(x, k) = p.",
 "all x > 0, all p in (0, 1)", "Monotonicity of the incomplete gamma function in its parameter; unbounded search.",
 ["mpsci/distributions/chi2.py:invcdf_k", "mpsci/distributions/chi2.py:invsf_k"])

prop("C73", "nakagami.nll_grad is the gradient of nakagami.nll",
 "The three components of nll_grad(x, nu, loc, scale) are the partial derivatives of nll in nu, loc and scale.",
 "all data above loc, all nu > 0, loc, scale > 0", "Identity over all data; finite differences only sample it.",
 ["mpsci/distributions/nakagami.py:nll_grad", "mpsci/distributions/nakagami.py:nll"])

prop("C74", "marcumq and cmarcumq are the two tails of the Marcum integral",
 "For m > 0, a > 0, b >= 0, marcumq(m, a, b) is the integral from b to infinity of x (x/a)^(m-1) exp(-(x^2+a^2)/2) I_(m-1)(a x), cmarcumq(m, a, b) is 1 minus it, both lie in [0, 1], marcumq falls from 1 at b = 0 to 0 at b = inf; for a = 0 they are the regularized incomplete gamma functions at b^2/2.",
 "all m > 0, a >= 0, b >= 0", "Identities over a continuum; the code integrates numerically on one of two sides and takes a shortcut for m = 1, a = 0.",
 ["mpsci/fun/_marcumq.py:marcumq", "mpsci/fun/_marcumq.py:cmarcumq"])

prop("C75", "boxcox_llf and yeojohnson_llf are the profile log-likelihoods, and the MLE functions return stationary points",
 "For data that are not all equal (and positive for Box-Cox), boxcox_llf(lam, x) and yeojohnson_llf(lam, x) are, up to the constant n/2 (1 + log(2 pi)), the maximum over mu and sigma > 0 of the log-likelihood of data whose transform is normal(mu, sigma); they are differentiable in lam, and a value returned by boxcox_mle or yeojohnson_mle is a stationary point.",
 "all real lam (including 0 and 2), all data that are not constant", "A maximum over a continuum for every dataset and parameter; the code never forms the likelihood it claims to maximise.",
 ["mpsci/stats/_boxcox_mle.py:boxcox_llf", "mpsci/stats/_boxcox_mle.py:boxcox_mle", "mpsci/stats/_yeojohnson_mle.py:yeojohnson_llf", "mpsci/stats/_yeojohnson_mle.py:yeojohnson_mle"])

prop("C76", "wright_bessel is the sum of Wright's series in every branch",
 "For real z, rho >= 0 and beta > 0 (z >= 0 when rho = 1), wright_bessel(z, rho, beta) is the sum of z^k / (k! Gamma(rho k + beta)) over k >= 0, whether the code uses a shortcut (z = 0, rho = 0, rho = 1) or sums the series; rho <= -1 raises ValueError.",
 "all real z, rho >= 0, beta > 0", "An infinite series over a continuum of arguments; the code dispatches to three closed forms that must agree with it.",
 ["mpsci/fun/_wright_bessel.py:wright_bessel"])

prop("C77", "debye is the Debye function",
 "For an integer n >= 1 and x > 0, debye(x, n=n) is n/x^n times the integral of t^n/(e^t - 1) over (0, x); it lies strictly between x/(e^x - 1) and 1, is strictly decreasing on [0, inf), its value 1 at x = 0 is the limit from the right and its value at infinity is 0; n < 1 raises ValueError.",
 "all integers n >= 1, all x >= 0", "Integral, limit and monotonicity over a continuum; the value at 0 is hard-coded.",
 ["mpsci/fun/_debye.py:debye"])

prop("C78", "hermite_e is the probabilists' Hermite polynomial",
 "For every natural number n and real x, hermite_e(n, x) = He_n(x), where He_0 = 1, He_1 = x and He_(n+2) = x He_(n+1) - (n+1) He_n.",
 "all n, all x", "All degrees and all arguments; the code rescales the physicists' polynomials.",
 ["mpsci/fun/_hermite_e.py:hermite_e"])

prop("C79", "roots_legendre returns a Gauss-Legendre rule",
 "roots_legendre(n) returns n roots of the Legendre polynomial P_n, symmetric about 0, and weights 2/((1 - x^2) P_n'(x)^2), such that the quadrature rule is exact for all polynomials of degree at most 2n - 1.",
 "all n >= 1, all polynomials of degree at most 2n - 1", "Exactness quantifies over all polynomials; n = 1, 2, 3 use hard-coded nodes and weights, the others a root finder on half of the nodes.",
 ["mpsci/fun/_legendre.py:roots_legendre"])

prop("C80", "spherical_besseli satisfies the recurrence of the modified spherical Bessel functions",
 "For z > 0, i_0(z) = sinh(z)/z, i_(-1)(z) = cosh(z)/z and i_(n-1)(z) - i_(n+1)(z) = (2n+1)/z i_n(z) for every real n > -1/2.",
 "all z > 0, all real n > -1/2", "Identities over a continuum.",
 ["mpsci/fun/_spherical_bessel.py:spherical_besseli"])

with open('/verif/properties.jsonl', 'w') as f:
    for p in P:
        f.write(json.dumps(p) + '\n')
print(len(P))
