{"id": "C01", "title": "fisher_exact two-sided p-value is the exact sum over all not-more-probable tables", "statement": "For a 2x2 table of nonnegative integers, fisher_exact(table)[1] equals the sum, over every table with the same row and column sums whose hypergeometric probability does not exceed the probability of the given table, of that probability (as an exact fraction). The two early-exit loops never skip a table that should be counted and never count one twice.", "quantifier": "all 2x2 tables of nonnegative integers of any size", "why_tests_cant": "The early break in the two scanning loops is only right because the hypergeometric weights are unimodal; that is a statement about all sizes of tables, not about sampled ones.", "anchors": ["mpsci/stats/_fisher_exact.py:_comb", "mpsci/stats/_fisher_exact.py:_num_combs", "mpsci/stats/_fisher_exact.py:fisher_exact"]}
{"id": "C02", "title": "fisher_exact one-sided p-values are the exact hypergeometric tails", "statement": "fisher_exact(table, 'greater')[1] is P(A >= a) and fisher_exact(table, 'less')[1] is P(A <= a) for the hypergeometric law fixed by the margins; the two add up to 1 + P(A = a).", "quantifier": "all 2x2 tables of nonnegative integers", "why_tests_cant": "Needs Vandermonde's identity for the normalisation, for every margin.", "anchors": ["mpsci/stats/_fisher_exact.py:fisher_exact", "mpsci/stats/_fisher_exact.py:_num_combs"]}
{"id": "C03", "title": "fisher_exact always returns a probability, and respects the symmetries of the table", "statement": "For a table of nonnegative integers no exception is raised, the p-value p satisfies 0 < p <= 1, the two-sided value does not change under transposition, row swap or column swap, and swapping the columns exchanges 'greater' and 'less'.", "quantifier": "all 2x2 tables of nonnegative integers and all three alternatives", "why_tests_cant": "Absence of exceptions (division by zero, unbound loop variable on an empty range) and the symmetries must hold for every table.", "anchors": ["mpsci/stats/_fisher_exact.py:fisher_exact"]}
{"id": "C04", "title": "fisher_exact odds ratio cases and rejection of unknown alternatives", "statement": "The first result is the exact fraction a*d/(b*c) when b*c is nonzero, +inf when only a*d is nonzero, nan when both vanish; any other alternative string raises ValueError.", "quantifier": "all integer tables and all alternative strings", "why_tests_cant": "Case split must be exhaustive for all integers.", "anchors": ["mpsci/stats/_fisher_exact.py:fisher_exact"]}
{"id": "C05", "title": "unique_counts returns the sorted distinct values with exact multiplicities", "statement": "For a nonempty sequence, unique_counts(x) = (values, counts) where values is strictly increasing, contains exactly the elements of x, counts[i] is the number of occurrences of values[i], and the result depends only on the multiset x; for an empty sequence it raises ValueError.", "quantifier": "all finite sequences of totally ordered values and all their permutations", "why_tests_cant": "Quantifies over sequences of all lengths and all permutations.", "anchors": ["mpsci/stats/_basic.py:unique_counts"]}
{"id": "C06", "title": "the median used by the estimators splits the data in half and minimises absolute deviation", "statement": "_median(x) (used by laplace.mle and laplace.mom) has at least half of the data on each side, does not depend on the order of x, and minimises c -> sum |x_i - c|; on an empty sequence it returns 0.", "quantifier": "all finite nonempty sequences of reals, all c", "why_tests_cant": "Optimality is over all real c and all data.", "anchors": ["mpsci/distributions/_common.py:_median", "mpsci/distributions/laplace.py:mle"]}
{"id": "C07", "title": "mean: bounds, equivariance, errors", "statement": "mean(x) lies between min(x) and max(x) (also with nonnegative weights), mean(a*x+b)=a*mean(x)+b, integer weights are repetition; mean raises ValueError when lengths differ and ZeroDivisionError when x is empty or the weights sum to zero.", "quantifier": "all finite sequences of reals and weights", "why_tests_cant": "Bounds must hold for all sequences.", "anchors": ["mpsci/stats/_basic.py:mean"]}
{"id": "C08", "title": "ordering of the means", "statement": "For positive data: min(x) <= hmean(x) <= gmean(x) <= mean(x) <= max(x), with and without positive weights; equality throughout for constant data.", "quantifier": "all finite nonempty sequences of positive reals, all positive weights", "why_tests_cant": "An inequality over all data sets.", "anchors": ["mpsci/stats/_basic.py:hmean", "mpsci/stats/_basic.py:gmean", "mpsci/stats/_basic.py:mean"]}
{"id": "C09", "title": "pmean: the special cases are the members of one increasing family", "statement": "pmean(x, p) for positive data is (mean(x**p))**(1/p) for p not in {0, 1, -1, inf, -inf}; the values returned at p = 1 and p = -1 agree with that formula, the values at +inf and -inf are max and min, it is homogeneous of degree 1, lies in [min, max] and is non-decreasing in p.", "quantifier": "all finite nonempty sequences of positive reals, all real p and p = +-inf", "why_tests_cant": "Monotonicity in p is a two-parameter inequality over all data.", "anchors": ["mpsci/stats/_basic.py:pmean"]}
{"id": "C10", "title": "lehmer_mean special cases agree with sum(x**p)/sum(x**(p-1))", "statement": "For positive data lehmer_mean(x, p) equals sum(x**p)/sum(x**(p-1)) for every finite p, including the special-cased p = 0, 1/2 and 1.", "quantifier": "all finite nonempty sequences of positive reals, all real p", "why_tests_cant": "The shortcut at p = 1/2 (geometric mean) is only right for two values; the tests use lengths and tolerances where this is visible only for chosen data.", "anchors": ["mpsci/stats/_basic.py:lehmer_mean"]}
{"id": "C11", "title": "var and std: non-negativity, zero iff constant, shift and scale laws", "statement": "var(x) >= 0 and is 0 exactly when all values are equal; var(x+b)=var(x); var(a*x)=a^2*var(x); var(x)=mean(x^2)-mean(x)^2; std(x)^2=var(x); n == ddof raises ZeroDivisionError.", "quantifier": "all finite sequences of reals, ddof < n", "why_tests_cant": "Universally quantified algebra over all data.", "anchors": ["mpsci/stats/_basic.py:var", "mpsci/stats/_basic.py:std", "mpsci/stats/_basic.py:variation"]}
{"id": "C12", "title": "pearsonr: range, symmetry, affine invariance, degenerate inputs", "statement": "For two sequences of equal length n >= 3, neither constant, r is in [-1, 1], r(x,y) = r(y,x), r(a*x+b,y) = sign(a)*r(x,y), |r|=1 for affinely related data; constant data gives (nan, nan); length 2 gives (+-1, 1); different lengths or unknown alternative raise ValueError.", "quantifier": "all pairs of finite real sequences", "why_tests_cant": "Cauchy-Schwarz over all data; no division by zero for any accepted data.", "anchors": ["mpsci/stats/_pearsonr.py:pearsonr"]}
{"id": "C13", "title": "pearsonr_ci contains r and stays inside [-1, 1]", "statement": "For -1 < r < 1, n > 3 and 0 < alpha < 1 the two-sided interval satisfies -1 < low <= r <= high < 1, a smaller alpha gives a wider interval, and one-sided intervals have the other end at -1 or 1.", "quantifier": "all r in (-1,1), n > 3, alpha in (0,1), any strictly increasing odd-symmetric normal quantile", "why_tests_cant": "Continuous range of parameters.", "anchors": ["mpsci/stats/_pearsonr.py:pearsonr_ci"]}
{"id": "C14", "title": "anova_oneway: sum-of-squares decomposition and invariances", "statement": "The F statistic is (between-group mean square)/(within-group mean square) where the within-group sum of squares, computed by subtraction, equals sum_g sum_i (x_gi - mean_g)^2; F >= 0; F is unchanged when a constant is added to all data, when all data are multiplied by a nonzero constant, and when groups are permuted.", "quantifier": "all families of at least two nonempty groups of reals with nonzero within-group variation", "why_tests_cant": "Identity over all shapes of data.", "anchors": ["mpsci/stats/_anova.py:anova_oneway"]}
{"id": "C15", "title": "chisquare and gtest statistics are non-negative and vanish only for a perfect fit", "statement": "For positive expected values and equal totals, both statistics are >= 0 and are 0 exactly when observed = expected; totals that differ by more than the tolerance raise ValueError.", "quantifier": "all finite sequences of nonnegative observed and positive expected frequencies", "why_tests_cant": "Gibbs' inequality over all data.", "anchors": ["mpsci/stats/_goftests.py:chisquare", "mpsci/stats/_goftests.py:gtest"]}
{"id": "C16", "title": "Box-Cox transforms round-trip and are increasing", "statement": "inv_boxcox(boxcox(x, l), l) = x for x > 0; boxcox(inv_boxcox(y, l), l) = y whenever l*y > -1; boxcox1p(x,l) = boxcox(1+x,l); both transforms are strictly increasing in x; outside the range inverse raises ValueError.", "quantifier": "all real lambda, all x in the domain", "why_tests_cant": "Continuous range of parameters, with a case split at lambda = 0.", "anchors": ["mpsci/stats/_boxcox.py:boxcox", "mpsci/stats/_boxcox.py:boxcox1p", "mpsci/stats/_boxcox.py:inv_boxcox", "mpsci/stats/_boxcox.py:inv_boxcox1p"]}
{"id": "C17", "title": "Yeo-Johnson transform round-trips, preserves sign and is increasing", "statement": "inv_yeojohnson(yeojohnson(x, l), l) = x for every real x and l; yeojohnson(x, l) has the sign of x and is strictly increasing in x; yeojohnson(-x, 2-l) = -yeojohnson(x, l).", "quantifier": "all real x and lambda", "why_tests_cant": "Four-way case split over a continuous range.", "anchors": ["mpsci/stats/_yeojohnson.py:yeojohnson", "mpsci/stats/_yeojohnson.py:inv_yeojohnson"]}
{"id": "C18", "title": "xlogy and xlog1py conventions", "statement": "xlogy(x,y) = x*log(y), with value 0 when x = 0 for every y that is not nan (including y = 0, inf and negative y), nan when either argument is nan; xlog1py(x,y) = xlogy(x,1+y).", "quantifier": "all extended-real x and y including nan", "why_tests_cant": "Special values must be right in every combination.", "anchors": ["mpsci/fun/_xlogy.py:xlogy", "mpsci/fun/_xlogy.py:xlog1py"]}
{"id": "C19", "title": "pow1pm1 and the inverse power functions are mutually inverse", "statement": "pow1pm1(x,y) = (1+x)^y - 1 for x > -1; inv_pow1pm1(pow1pm1(x,y),y) = x; inv_powm1(x^y - 1, y) = x for x > 0; the inverses raise ValueError exactly when y = 0 or t <= -1.", "quantifier": "all real x > -1, y != 0, t", "why_tests_cant": "Continuous range.", "anchors": ["mpsci/fun/_powm1.py:pow1pm1", "mpsci/fun/_powm1.py:inv_powm1", "mpsci/fun/_powm1.py:inv_pow1pm1"]}
{"id": "C20", "title": "logsumexp equals log(sum(w*exp(x))) and never exponentiates a positive number", "statement": "logsumexp(logs, weights) = log(sum_i w_i exp(logs_i)) for every nonempty list of reals with positive weighted sum; adding a constant to all inputs adds it to the result; max <= result <= max + log n in the unweighted case; every argument passed to exp is <= 0; empty input raises ValueError.", "quantifier": "all finite lists of reals and weights", "why_tests_cant": "Quantifies over all lists.", "anchors": ["mpsci/fun/_logsumexp.py:logsumexp"]}
{"id": "C21", "title": "logbinomial and logbeta: exact combinatorial meaning, symmetry and recurrences", "statement": "exp(logbinomial(n,k)) is the binomial coefficient C(n,k) for integers 0 <= k <= n; logbinomial(n,k) = logbinomial(n,n-k); ValueError exactly when n < 0, k < 0 or k > n; logbeta is symmetric and satisfies B(x+1,y) = B(x,y)*x/(x+y); multivariate_logbeta on two entries is logbeta.", "quantifier": "all integers 0 <= k <= n, all positive reals x, y, for any log-gamma satisfying the functional equation", "why_tests_cant": "All sizes.", "anchors": ["mpsci/fun/_logbinomial.py:logbinomial", "mpsci/fun/_logbeta.py:logbeta", "mpsci/fun/_logbeta.py:multivariate_logbeta"]}
{"id": "C22", "title": "odds_ratio: degenerate tables, extreme tables and rejection of bad input", "statement": "odds_ratio raises ValueError for unknown kind/alternative, non-2x2 shapes and negative entries; returns odds ratio nan, p-value 1 and interval (0, inf) when a row or column is zero; kind='conditional' returns 0 or inf exactly when the table is at an end of the hypergeometric support; kind='sample' returns a*d/(b*c).", "quantifier": "all tables of nonnegative integers, all kinds and alternatives", "why_tests_cant": "Exhaustive case analysis over all tables.", "anchors": ["mpsci/stats/_odds_ratio.py:odds_ratio", "mpsci/stats/_odds_ratio.py:_sample_odds_ratio", "mpsci/stats/_odds_ratio.py:_conditional_oddsratio", "mpsci/stats/_odds_ratio.py:_row_or_column_zero"]}
{"id": "C23", "title": "odds_ratio(kind='sample').odds_ratio_ci returns an interval around the sample odds ratio", "statement": "For a table of positive integers and 0 < confidence_level < 1, odds_ratio(table, kind='sample').odds_ratio_ci(confidence_level) returns low <= odds ratio <= high.", "quantifier": "all tables of positive integers, all confidence levels", "why_tests_cant": "The failing path is never reached by the shipped tests.", "anchors": ["mpsci/stats/_odds_ratio.py:_sample_odds_ratio_ci"]}
{"id": "C24", "title": "the bracket search used by the numeric inverses terminates and contains the solution", "statement": "For every monotone function whose range straddles p, the search for a starting bracket used by the numeric invcdf/invsf functions terminates, and the interval it returns contains a solution of func(x) = p; when it returns a degenerate interval that point is an exact solution.", "quantifier": "all increasing or decreasing functions on (-inf,inf), (a,inf), (-inf,b), [a,b] or (0,inf), all p strictly inside the range, all numbers of refinement steps", "why_tests_cant": "Quantifies over functions; termination cannot be tested.", "anchors": ["mpsci/distributions/_common.py:_find_bracket", "mpsci/distributions/_common.py:_find_bracket_by_expansion_neginf_inf", "mpsci/distributions/_common.py:_find_bracket_by_expansion_0_inf", "mpsci/distributions/_common.py:_generic_inv"]}
{"id": "C25", "title": "betaincinv(method='bisect') keeps a sign change and only stops at a root or at adjacent numbers", "statement": "The bisection keeps func(x0) and func(x1) of opposite sign with x0 <= x1 inside the start bracket; it returns an end point exactly when func vanishes there, raises when the signs agree, and with midpoints rounded to any finite precision it terminates, at a zero of func or at one of two neighbouring representable numbers between which func changes sign.", "quantifier": "all functions and start brackets, all floating-point grids", "why_tests_cant": "Loop with no bound in the source.", "anchors": ["mpsci/fun/_inv_reg_inc_beta.py:mp_bisect", "mpsci/fun/_inv_reg_inc_beta.py:betaincinv"]}
{"id": "C26", "title": "the Newton iterations in invgamma and invgauss converge from the mode for every p", "statement": "Starting at the mode, the unsafeguarded Newton iterations used by invgamma.invcdf/invsf (and invgauss) stay inside the support, move monotonically towards the quantile, never cross it, never divide by zero, and the loop stops after finitely many steps.", "quantifier": "all differentiable cdfs with a density increasing before the mode and decreasing after it, all p in (0,1)", "why_tests_cant": "The source carries a FIXME about a potentially infinite loop; only a proof settles it.", "anchors": ["mpsci/distributions/invgamma.py:invcdf", "mpsci/distributions/invgamma.py:invsf", "mpsci/distributions/invgauss.py"]}
{"id": "C27", "title": "every public call leaves the global mpmath precision unchanged", "statement": "After any sequence of mpsci calls, returning normally or raising, mp.prec has the value it had before, and inside the call precision is never lower than the caller's.", "quantifier": "all call sequences and all exception points", "why_tests_cant": "Exception points and nesting are unbounded.", "anchors": ["mpsci/distributions", "mpsci/stats/_basic.py", "mpsci/distributions/_common.py:_generic_inv"]}
{"id": "C28", "title": "fishers_noncentral_hypergeometric results do not depend on the call history", "statement": "pmf, cdf, sf, mean and support_pmf return, for given arguments and precision, the same values after any history of earlier calls, evictions and uses of earlier results.", "quantifier": "all call histories, including histories in which the caller modifies a list it received", "why_tests_cant": "History-dependence through the memo table.", "anchors": ["mpsci/distributions/fishers_noncentral_hypergeometric.py:_support_pmf", "mpsci/distributions/fishers_noncentral_hypergeometric.py:support_pmf"]}
{"id": "C30", "title": "cdf and sf are complementary probabilities", "statement": "For every valid parameter choice and every x (finite, -inf or +inf), 0 <= cdf(x) <= 1 and cdf(x) + sf(x) = 1, without exceptions or nan, for the closed-form continuous distributions.", "quantifier": "all x in the extended reals and all valid parameters, per distribution", "why_tests_cant": "Continuous domain with case splits at support ends.", "anchors": ["mpsci/distributions/*.py:cdf", "mpsci/distributions/*.py:sf"]}
{"id": "C31", "title": "cdf is non-decreasing and goes from 0 to 1", "statement": "x <= y implies cdf(x) <= cdf(y); cdf is 0 at and below the lower support end and 1 at +inf.", "quantifier": "all pairs x <= y and all valid parameters", "why_tests_cant": "Two-point inequality over a continuum.", "anchors": ["mpsci/distributions/*.py:cdf"]}
{"id": "C32", "title": "pdf is the derivative of cdf", "statement": "At every interior point of the support pdf(x) is the derivative of cdf at x; outside the support pdf(x) = 0 (hence pdf integrates to 1).", "quantifier": "all interior points and all valid parameters", "why_tests_cant": "An identity between functions.", "anchors": ["mpsci/distributions/*.py:pdf", "mpsci/distributions/*.py:cdf"]}
{"id": "C33", "title": "pdf is non-negative and integrates to 1", "statement": "pdf(x) >= 0 everywhere and the integral of pdf over its support is 1.", "quantifier": "all valid parameters", "why_tests_cant": "Improper integrals for all parameters.", "anchors": ["mpsci/distributions/*.py:pdf"]}
{"id": "C34", "title": "logpdf is the logarithm of pdf", "statement": "exp(logpdf(x)) = pdf(x) for every x, with logpdf(x) = -inf exactly where pdf(x) = 0.", "quantifier": "all x and all valid parameters", "why_tests_cant": "Two separately written formulas must agree everywhere, including at the ends of the support.", "anchors": ["mpsci/distributions/*.py:logpdf", "mpsci/distributions/*.py:pdf"]}
{"id": "C35", "title": "invcdf inverts cdf", "statement": "cdf(invcdf(p)) = p for every p in (0,1), the value lies inside the support, and invcdf(cdf(x)) = x for every x in the interior of the support.", "quantifier": "all p in (0,1), all interior x, all valid parameters", "why_tests_cant": "Continuum.", "anchors": ["mpsci/distributions/*.py:invcdf"]}
{"id": "C36", "title": "invsf inverts sf", "statement": "sf(invsf(p)) = p for every p in (0,1), invsf(sf(x)) = x in the interior of the support, and invsf(p) = invcdf(1-p).", "quantifier": "all p in (0,1), all interior x, all valid parameters", "why_tests_cant": "Continuum.", "anchors": ["mpsci/distributions/*.py:invsf"]}
{"id": "C37", "title": "invcdf and invsf reject p outside [0,1] and map 0 and 1 to the ends of the support", "statement": "p < 0 or p > 1 raises ValueError; invcdf(0) = invsf(1) = lower end, invcdf(1) = invsf(0) = upper end of the support.", "quantifier": "all p and all valid parameters", "why_tests_cant": "Boundary behaviour per distribution.", "anchors": ["mpsci/distributions/*.py:invcdf", "mpsci/distributions/*.py:invsf", "mpsci/distributions/_common.py:_validate_p"]}
{"id": "C38", "title": "invalid parameters always raise ValueError", "statement": "Every function of a distribution raises ValueError, whatever the other arguments, when a scale or shape parameter is outside its documented domain.", "quantifier": "all x, p and all invalid parameter values", "why_tests_cant": "All invalid values, all functions.", "anchors": ["mpsci/distributions/*.py:_validate_params", "mpsci/distributions/_common.py:_validate_loc_scale"]}
{"id": "C39", "title": "mode maximises the density (continuous distributions)", "statement": "pdf(mode) >= pdf(x) for every x, and the mode lies in the closed support, for the distributions with a closed-form mode.", "quantifier": "all x and all valid parameters", "why_tests_cant": "Global optimality over a continuum.", "anchors": ["mpsci/distributions/*.py:mode"]}
{"id": "C40", "title": "mode maximises the probability mass function (discrete distributions), with the documented tie rule", "statement": "The returned integer is in the support, no point has larger probability, and among several maximisers it is the documented one (smallest for binomial, poisson, hypergeometric, negative_hypergeometric, betabinomial, negative_binomial; largest for fishers_noncentral_hypergeometric).", "quantifier": "all valid parameters, all support points", "why_tests_cant": "All sizes; ties are measure zero and never hit by sampling.", "anchors": ["mpsci/distributions/binomial.py:mode", "mpsci/distributions/poisson.py:mode", "mpsci/distributions/hypergeometric.py:mode", "mpsci/distributions/betabinomial.py:mode", "mpsci/distributions/negative_hypergeometric.py:mode", "mpsci/distributions/negative_binomial.py:mode", "mpsci/distributions/fishers_noncentral_hypergeometric.py:mode"]}
{"id": "C41", "title": "discrete pmf sums to 1 over the support and vanishes outside", "statement": "The sum of pmf(k) over support(...) is 1 (finite supports) or the partial sums converge to 1 (infinite supports).", "quantifier": "all valid parameters", "why_tests_cant": "Sums of unbounded length.", "anchors": ["mpsci/distributions/hypergeometric.py:pmf", "mpsci/distributions/negative_hypergeometric.py:pmf", "mpsci/distributions/binomial.py:pmf", "mpsci/distributions/betabinomial.py:pmf", "mpsci/distributions/trunc_discrete_exp.py:pmf", "mpsci/distributions/gauss_kuzmin.py:pmf", "mpsci/distributions/poisson.py:pmf"]}
{"id": "C42", "title": "discrete cdf and sf are the partial sums of pmf", "statement": "cdf(k) = sum_{j<=k} pmf(j) and sf(k) = 1 - cdf(k) for the discrete distributions with closed-form or summed cdf.", "quantifier": "all k and all valid parameters", "why_tests_cant": "Sums of unbounded length.", "anchors": ["mpsci/distributions/gauss_kuzmin.py:cdf", "mpsci/distributions/trunc_discrete_exp.py:cdf", "mpsci/distributions/fishers_noncentral_hypergeometric.py:cdf", "mpsci/distributions/binomial.py:cdf"]}
{"id": "C43", "title": "closed-form moments are the moments of the distribution", "statement": "mean, var (and noncentral_moment where given) equal the corresponding sum or integral against pmf/pdf.", "quantifier": "all valid parameters", "why_tests_cant": "Sums and integrals for all parameters.", "anchors": ["mpsci/distributions/uniform.py:noncentral_moment", "mpsci/distributions/hypergeometric.py:mean", "mpsci/distributions/binomial.py", "mpsci/distributions/trunc_discrete_exp.py:mean", "mpsci/distributions/beta.py:noncentral_moment"]}
{"id": "C44", "title": "location and scale act as documented", "statement": "cdf(loc + scale*z, loc, scale) = cdf(z, 0, 1), pdf(loc + scale*z, loc, scale) = pdf(z, 0, 1)/scale, invcdf(p, loc, scale) = loc + scale*invcdf(p, 0, 1).", "quantifier": "all z, loc, scale > 0 and all valid shape parameters", "why_tests_cant": "Continuum.", "anchors": ["mpsci/distributions/*.py"]}
{"id": "C45", "title": "family identities between distributions", "statement": "gumbel_min is the reflection of gumbel_max, weibull_max of weibull_min; genextreme with xi=0 is gumbel_max, exponweib with a=1 is weibull_min, loglogistic is burr12 with d=1, chi2 is gamma, and so on.", "quantifier": "all x and all valid parameters", "why_tests_cant": "Separately written formulas must agree everywhere.", "anchors": ["mpsci/distributions/gumbel_min.py", "mpsci/distributions/gumbel_max.py", "mpsci/distributions/weibull_min.py", "mpsci/distributions/weibull_max.py", "mpsci/distributions/genextreme.py", "mpsci/distributions/exponweib.py"]}
{"id": "C46", "title": "interval_prob is the probability of the interval", "statement": "interval_prob(x1, x2) = cdf(x2) - cdf(x1) for every x1 <= x2.", "quantifier": "all x1 <= x2 and parameters", "why_tests_cant": "Continuum with a case split on signs.", "anchors": ["mpsci/distributions/laplace.py:interval_prob", "mpsci/distributions/normal.py:interval_prob"]}
{"id": "C47", "title": "closed-form maximum likelihood estimates are global optima", "statement": "For every data set (with counts where supported), the parameters returned by mle minimise nll over all admissible parameters of the free kind.", "quantifier": "all data sets, all competing parameter values", "why_tests_cant": "Global optimality over data and parameters.", "anchors": ["mpsci/distributions/normal.py:mle", "mpsci/distributions/uniform.py:mle", "mpsci/distributions/laplace.py:mle", "mpsci/distributions/poisson.py:mle", "mpsci/distributions/binomial.py:mle", "mpsci/distributions/pareto.py:mle", "mpsci/distributions/gumbel_max.py:mle", "mpsci/distributions/gamma.py:mle", "mpsci/distributions/lognormal.py:mle", "mpsci/distributions/negative_binomial.py:mle"]}
{"id": "C48", "title": "method-of-moments estimates reproduce the sample moments", "statement": "After par = dist.mom(x), dist.mean(*par) equals the sample mean and dist.var(*par) the sample variance.", "quantifier": "all data sets for which mom returns", "why_tests_cant": "All data.", "anchors": ["mpsci/distributions/uniform.py:mom", "mpsci/distributions/laplace.py:mom", "mpsci/distributions/logistic.py:mom", "mpsci/distributions/gamma.py:mom", "mpsci/distributions/beta.py:mom", "mpsci/distributions/gumbel_max.py:mom", "mpsci/distributions/lognormal.py:mom"]}
{"id": "C49", "title": "nll is minus the sum of logpdf, and counts mean repetition", "statement": "nll(x, ...) = -sum_i logpdf(x_i, ...) and nll(x, counts=c) = nll of the sequence with x_i repeated c_i times; bad counts raise ValueError.", "quantifier": "all data sets, counts and valid parameters", "why_tests_cant": "All data.", "anchors": ["mpsci/distributions/gamma.py:nll", "mpsci/distributions/gumbel_max.py:nll", "mpsci/distributions/poisson.py:nll", "mpsci/distributions/_common.py:_validate_counts"]}
{"id": "C50", "title": "gamma.nll_grad, nll_hess and nll_invhess are the gradient, Hessian and inverse Hessian of nll", "statement": "nll_grad is the gradient of nll in (k, scale), nll_hess its Hessian, and nll_invhess*nll_hess is the identity whenever it is defined.", "quantifier": "all data and parameters, any digamma/trigamma that are the derivatives of loggamma", "why_tests_cant": "Identity over all data.", "anchors": ["mpsci/distributions/gamma.py:nll_grad", "mpsci/distributions/gamma.py:nll_hess", "mpsci/distributions/gamma.py:nll_invhess"]}
{"id": "C51", "title": "multivariate_hypergeometric.support enumerates every outcome exactly once", "statement": "The generator yields, in lexicographic order and without repetition, exactly the vectors k with 0 <= k_i <= colors_i and sum(k) = nsample.", "quantifier": "all lists of nonnegative colors and all nsample", "why_tests_cant": "Recursion of unbounded depth.", "anchors": ["mpsci/distributions/multivariate_hypergeometric.py:support", "mpsci/distributions/multivariate_hypergeometric.py:_support_gen"]}
{"id": "C52", "title": "multivariate_hypergeometric pmf, mean and covariance are consistent", "statement": "pmf sums to 1 over support; mean(colors, nsample) sums to nsample; every row of cov sums to 0; cov is symmetric.", "quantifier": "all lists of colors, all nsample <= sum(colors)", "why_tests_cant": "Generalised Vandermonde identity for all sizes.", "anchors": ["mpsci/distributions/multivariate_hypergeometric.py:pmf", "mpsci/distributions/multivariate_hypergeometric.py:mean", "mpsci/distributions/multivariate_hypergeometric.py:cov"]}
{"id": "C53", "title": "dirichlet mean and covariance are consistent", "statement": "mean(alpha) is a probability vector; cov(alpha) is symmetric, has non-negative diagonal and every row sums to 0; invalid alpha raises ValueError.", "quantifier": "all vectors alpha of positive reals", "why_tests_cant": "All dimensions.", "anchors": ["mpsci/distributions/dirichlet.py"]}
{"id": "C54", "title": "the polynomial coefficients used for nct moments are the derivatives of exp(x^2/2)", "statement": "For every k the cached coefficient list is that of the polynomial exp(-x^2/2) * d^k/dx^k exp(x^2/2).", "quantifier": "all k", "why_tests_cant": "Recursion of unbounded depth.", "anchors": ["mpsci/distributions/nct.py:_poly_coeffs"]}
{"id": "C55", "title": "truncnorm probabilities and moments", "statement": "For a < b, cdf, sf and pdf of truncnorm are those of the normal law conditioned on [a,b], and the moment recurrence returns the true moments.", "quantifier": "all a < b, x, k", "why_tests_cant": "Recurrence of unbounded depth, integrals.", "anchors": ["mpsci/distributions/truncnorm.py"]}
{"id": "C56", "title": "genexpon.logpdf is the logarithm of genexpon.pdf", "statement": "exp(genexpon.logpdf(x, a, b, c, loc, scale)) = genexpon.pdf(x, a, b, c, loc, scale).", "quantifier": "all x >= loc and valid parameters", "why_tests_cant": "scale = 1 in the tests hides a missing -log(scale).", "anchors": ["mpsci/distributions/genexpon.py:logpdf"]}
{"id": "C57", "title": "levy.support can be called with the parameters of the distribution", "statement": "levy.support(mu, sigma) returns (mu, inf).", "quantifier": "all mu, sigma > 0", "why_tests_cant": "Signature error not covered.", "anchors": ["mpsci/distributions/levy.py:support"]}
{"id": "C58", "title": "betaprime.invsf(0) is the upper end of the support", "statement": "betaprime.invsf(0, a, b, scale) = +inf.", "quantifier": "all valid parameters", "why_tests_cant": "Boundary.", "anchors": ["mpsci/distributions/betaprime.py:invsf"]}
{"id": "C59", "title": "negative_binomial.mode lies in the support", "statement": "negative_binomial.mode(r, p) >= 0 for every accepted r, p.", "quantifier": "all accepted r, p", "why_tests_cant": "Boundary p = 0 and p = 1.", "anchors": ["mpsci/distributions/negative_binomial.py:mode"]}
{"id": "C60", "title": "negative_hypergeometric.mode returns for all valid parameters", "statement": "negative_hypergeometric.mode(ntotal, ngood, untilnbad) returns a maximiser of pmf for all valid parameters.", "quantifier": "all valid parameters", "why_tests_cant": "One-parameter family of corner cases (a single bad item).", "anchors": ["mpsci/distributions/negative_hypergeometric.py:mode"]}
{"id": "C61", "title": "studentt.invcdf has the right sign", "statement": "studentt.invcdf(p, df) > 0 for p > 1/2.", "quantifier": "all p in (1/2,1), df > 0", "why_tests_cant": "Needs the bracket search to hit the root exactly.", "anchors": ["mpsci/distributions/studentt.py:invcdf"]}
{"id": "C62", "title": "binomial.logpmf is the logarithm of binomial.pmf", "statement": "exp(logpmf(k,n,p)) = pmf(k,n,p) for 0 <= k <= n and 0 <= p <= 1.", "quantifier": "all n, k, p", "why_tests_cant": "Boundary p in {0,1}: 0*log(0).", "anchors": ["mpsci/distributions/binomial.py:logpmf"]}
{"id": "C63", "title": "hypergeometric and multivariate_hypergeometric second moments exist for every valid parameter", "statement": "var/cov return (a number) for all valid parameters.", "quantifier": "all valid parameters", "why_tests_cant": "Corner ntotal = 1.", "anchors": ["mpsci/distributions/hypergeometric.py:var", "mpsci/distributions/multivariate_hypergeometric.py:cov"]}
{"id": "C64", "title": "maxwell and nakagami inverse functions respect loc", "statement": "invcdf(0) = invsf(1) = loc and invcdf inverts cdf for every loc.", "quantifier": "all loc, scale, p", "why_tests_cant": "Tests use loc = 0.", "anchors": ["mpsci/distributions/maxwell.py:invcdf", "mpsci/distributions/maxwell.py:invsf", "mpsci/distributions/nakagami.py:invcdf"]}
{"id": "C65", "title": "logpdf at the lower end of the support agrees with pdf there", "statement": "exp(logpdf(x)) = pdf(x) also at x equal to an end of the support (chi, chi2, gamma, kumaraswamy, exponweib, genpareto, genextreme).", "quantifier": "all valid parameters, x at the support end", "why_tests_cant": "0*log(0) corner cases.", "anchors": ["mpsci/distributions/chi.py:logpdf", "mpsci/distributions/chi2.py:logpdf", "mpsci/distributions/gamma.py:logpdf", "mpsci/distributions/kumaraswamy.py:logpdf", "mpsci/distributions/genpareto.py:logpdf", "mpsci/distributions/genextreme.py:logpdf"]}
{"id": "C66", "title": "lognormal.sf returns 1 for x <= 0", "statement": "lognormal.sf(x, mu, sigma) = 1 for every x <= 0.", "quantifier": "all x <= 0", "why_tests_cant": "Branch never executed by the tests.", "anchors": ["mpsci/distributions/lognormal.py:sf"]}
{"id": "C67", "title": "normal.nll defaults agree with normal.logpdf defaults", "statement": "normal.nll(x) = -sum(normal.logpdf(t) for t in x).", "quantifier": "all data", "why_tests_cant": "Default arguments not covered.", "anchors": ["mpsci/distributions/normal.py:nll"]}
{"id": "C68", "title": "binomial.mle with counts and fixed p is a maximiser", "statement": "binomial.mle(x, p=p, counts=c)[0] minimises nll over n.", "quantifier": "all data and counts", "why_tests_cant": "Counts are ignored on one path.", "anchors": ["mpsci/distributions/binomial.py:mle"]}
{"id": "C69", "title": "the conditional odds ratio interval has exact coverage", "statement": "For fixed margins and any true odds ratio theta, the noncentral hypergeometric probability of the tables whose odds_ratio(...).odds_ratio_ci(level) interval contains theta is at least level; the limits are the odds ratios at which the observed count has tail probability (1-level)/2 (two-sided) or 1-level (one-sided), with 0 or inf at the ends of the support.", "quantifier": "all margins, all odds ratios, all levels strictly between 0 and 1, all alternatives", "why_tests_cant": "A coverage guarantee quantifies over the true parameter and sums over all tables.", "anchors": ["mpsci/stats/_odds_ratio.py:_conditional_oddsratio_ci", "mpsci/stats/_odds_ratio.py:_ci_lower", "mpsci/stats/_odds_ratio.py:_ci_upper", "mpsci/stats/_odds_ratio.py:_solve"]}
{"id": "C70", "title": "odds_ratio_ci returns an interval for every accepted confidence level", "statement": "For kind='conditional', odds_ratio_ci(level) returns an interval for every level it does not reject, i.e. for 0 <= level <= 1.", "quantifier": "all tables of nonnegative integers, all levels in [0, 1], all alternatives", "why_tests_cant": "Termination of an unbounded search cannot be tested.", "anchors": ["mpsci/stats/_odds_ratio.py:odds_ratio_ci", "mpsci/stats/_odds_ratio.py:_solve"]}
{"id": "C71", "title": "digammainv(y) is the positive solution of digamma(x) = y", "statement": "For every real y the equation digamma(x) = y has exactly one solution x > 0, and digammainv(y) returns no other number.", "quantifier": "all real y, whatever the root finder does before its result passes the check", "why_tests_cant": "Continuum; uniqueness of the solution is a theorem about digamma.", "anchors": ["mpsci/fun/_digammainv.py:digammainv"]}
{"id": "C72", "title": "chi2.invcdf_k and invsf_k solve for the degrees of freedom", "statement": "For x > 0 and 0 < p < 1 there is exactly one k > 0 with chi2.cdf(x, k) = p; invcdf_k(x, p) returns it, and invsf_k(x, p) returns the one with sf(x, k) = p.", "quantifier": "all x > 0, all p in (0, 1)", "why_tests_cant": "Monotonicity of the incomplete gamma function in its parameter; unbounded search.", "anchors": ["mpsci/distributions/chi2.py:invcdf_k", "mpsci/distributions/chi2.py:invsf_k"]}
{"id": "C73", "title": "nakagami.nll_grad is the gradient of nakagami.nll", "statement": "The three components of nll_grad(x, nu, loc, scale) are the partial derivatives of nll in nu, loc and scale.", "quantifier": "all data above loc, all nu > 0, loc, scale > 0", "why_tests_cant": "Identity over all data; finite differences only sample it.", "anchors": ["mpsci/distributions/nakagami.py:nll_grad", "mpsci/distributions/nakagami.py:nll"]}
{"id": "C74", "title": "marcumq and cmarcumq are the two tails of the Marcum integral", "statement": "For m > 0, a > 0, b >= 0, marcumq(m, a, b) is the integral from b to infinity of x (x/a)^(m-1) exp(-(x^2+a^2)/2) I_(m-1)(a x), cmarcumq(m, a, b) is 1 minus it, both lie in [0, 1], marcumq falls from 1 at b = 0 to 0 at b = inf; for a = 0 they are the regularized incomplete gamma functions at b^2/2.", "quantifier": "all m > 0, a >= 0, b >= 0", "why_tests_cant": "Identities over a continuum; the code integrates numerically on one of two sides and takes a shortcut for m = 1, a = 0.", "anchors": ["mpsci/fun/_marcumq.py:marcumq", "mpsci/fun/_marcumq.py:cmarcumq"]}
{"id": "C75", "title": "boxcox_llf and yeojohnson_llf are the profile log-likelihoods, and the MLE functions return stationary points", "statement": "For data that are not all equal (and positive for Box-Cox), boxcox_llf(lam, x) and yeojohnson_llf(lam, x) are, up to the constant n/2 (1 + log(2 pi)), the maximum over mu and sigma > 0 of the log-likelihood of data whose transform is normal(mu, sigma); they are differentiable in lam, and a value returned by boxcox_mle or yeojohnson_mle is a stationary point.", "quantifier": "all real lam (including 0 and 2), all data that are not constant", "why_tests_cant": "A maximum over a continuum for every dataset and parameter; the code never forms the likelihood it claims to maximise.", "anchors": ["mpsci/stats/_boxcox_mle.py:boxcox_llf", "mpsci/stats/_boxcox_mle.py:boxcox_mle", "mpsci/stats/_yeojohnson_mle.py:yeojohnson_llf", "mpsci/stats/_yeojohnson_mle.py:yeojohnson_mle"]}
{"id": "C76", "title": "wright_bessel is the sum of Wright's series in every branch", "statement": "For real z, rho >= 0 and beta > 0 (z >= 0 when rho = 1), wright_bessel(z, rho, beta) is the sum of z^k / (k! Gamma(rho k + beta)) over k >= 0, whether the code uses a shortcut (z = 0, rho = 0, rho = 1) or sums the series; rho <= -1 raises ValueError.", "quantifier": "all real z, rho >= 0, beta > 0", "why_tests_cant": "An infinite series over a continuum of arguments; the code dispatches to three closed forms that must agree with it.", "anchors": ["mpsci/fun/_wright_bessel.py:wright_bessel"]}
{"id": "C77", "title": "debye is the Debye function", "statement": "For an integer n >= 1 and x > 0, debye(x, n=n) is n/x^n times the integral of t^n/(e^t - 1) over (0, x); it lies strictly between x/(e^x - 1) and 1, is strictly decreasing on [0, inf), its value 1 at x = 0 is the limit from the right and its value at infinity is 0; n < 1 raises ValueError.", "quantifier": "all integers n >= 1, all x >= 0", "why_tests_cant": "Integral, limit and monotonicity over a continuum; the value at 0 is hard-coded.", "anchors": ["mpsci/fun/_debye.py:debye"]}
{"id": "C78", "title": "hermite_e is the probabilists' Hermite polynomial", "statement": "For every natural number n and real x, hermite_e(n, x) = He_n(x), where He_0 = 1, He_1 = x and He_(n+2) = x He_(n+1) - (n+1) He_n.", "quantifier": "all n, all x", "why_tests_cant": "All degrees and all arguments; the code rescales the physicists' polynomials.", "anchors": ["mpsci/fun/_hermite_e.py:hermite_e"]}
{"id": "C79", "title": "roots_legendre returns a Gauss-Legendre rule", "statement": "roots_legendre(n) returns n roots of the Legendre polynomial P_n, symmetric about 0, and weights 2/((1 - x^2) P_n'(x)^2), such that the quadrature rule is exact for all polynomials of degree at most 2n - 1.", "quantifier": "all n >= 1, all polynomials of degree at most 2n - 1", "why_tests_cant": "Exactness quantifies over all polynomials; n = 1, 2, 3 use hard-coded nodes and weights, the others a root finder on half of the nodes.", "anchors": ["mpsci/fun/_legendre.py:roots_legendre"]}
{"id": "C80", "title": "spherical_besseli satisfies the recurrence of the modified spherical Bessel functions", "statement": "For z > 0, i_0(z) = sinh(z)/z, i_(-1)(z) = cosh(z)/z and i_(n-1)(z) - i_(n+1)(z) = (2n+1)/z i_n(z) for every real n > -1/2.", "quantifier": "all z > 0, all real n > -1/2", "why_tests_cant": "Identities over a continuum.", "anchors": ["mpsci/fun/_spherical_bessel.py:spherical_besseli"]}
