# property -> (status, note); everything else is 'partial'
STATUS['C01'] = ('proved', 'exact rational arithmetic, all tables of natural numbers')
STATUS['C02'] = ('proved', 'all tables of natural numbers')
STATUS['C03'] = ('proved', 'all tables of natural numbers')
STATUS['C04'] = ('proved', 'all integer tables; the refuted theorem records that negative entries are not rejected cleanly')
STATUS['C05'] = ('proved', 'all finite sequences of reals')
STATUS['C06'] = ('proved', 'all finite sequences of reals')
STATUS['C07'] = ('proved', 'all finite sequences of reals, optional non-negative weights')
STATUS['C08'] = ('proved', 'all finite sequences of positive reals, optional non-negative weights')
STATUS['C09'] = ('proved', 'all finite sequences of positive reals, optional weights, all real and infinite orders')
STATUS['C10'] = ('partial', 'proved for every order except 1/2, where the code returns the geometric mean: right for two values, refuted for three')
STATUS['C11'] = ('proved', 'all finite sequences of reals')
for c in ['C16', 'C17', 'C18', 'C19', 'C20']:
    STATUS[c] = ('proved', '')
STATUS['C12'] = ('proved', 'all pairs of finite real sequences; the p-value only needs betainc/beta to return numbers')
STATUS['C13'] = ('proved', 'any strictly increasing quantile function with median 0')
STATUS['C14'] = ('proved', '')
STATUS['C15'] = ('proved', '')
STATUS['C57'] = ('partial', 'violated by the code: the refuted theorem says exactly how')
STATUS['C58'] = ('partial', 'violated by the code: the refuted theorem says exactly how')
STATUS['C66'] = ('partial', 'violated by the code for every x <= 0')
STATUS['C67'] = ('partial', 'violated by the code: the default of mu differs')
STATUS['C21'] = ('proved', '')
STATUS['C24'] = ('proved', 'any real function with at least one sign change; search steps that need no bound are given enough fuel')
STATUS['C25'] = ('partial', 'brackets not straddling 0 and betaincinv are proved; on a bracket around 0 the refuted theorem shows that the loop never ends')
STATUS['C26'] = ('proved', 'invgamma and invgauss, every precision; exact arithmetic in the iteration')
STATUS['C28'] = ('partial', 'proved for every history without assignments into a returned list; refuted for histories with one: the cached list itself is handed out')
STATUS['C22'] = ('partial', 'proved for bad input, degenerate tables, kind=conditional and kind=sample with positive entries; refuted for kind=sample with a zero entry (ZeroDivisionError)')
STATUS['C23'] = ('partial', 'refuted: the built-in sum is applied to a number, so the call always raises TypeError')
STATUS['C69'] = ('proved', 'relative to a root finder that meets bracket_solver')
STATUS['C70'] = ('partial', 'proved for levels strictly between 0 and 1 and level 0 two-sided; refuted at level 1 and, one-sided, level 0: the bracket search never ends')
STATUS['C27'] = ('partial', 'restoration proved for the skeleton of all 1200 functions, lambdas and module bodies; never-lower proved for callers with at least 15 bits and refuted below (logistic.mle)')
STATUS['C53'] = ('proved', 'also positive semidefiniteness and the density; entropy is modelled but has no theorem about its value')
STATUS['C54'] = ('proved', '')
STATUS['C50'] = ('proved', '')
STATUS['C71'] = ('proved', 'relative to a root finder that checks its result')
STATUS['C65'] = ('partial', 'proved for gamma with k > 1, chi2 with k > 2, chi with k > 1; refuted for gamma with k = 1, chi2 with k = 2, chi with k = 1 and for kumaraswamy')
STATUS['C64'] = ('partial', 'refuted for maxwell at p = 0 (invcdf) and p = 1 (invsf); elsewhere a number returned solves the equation whatever loc is, relative to a root finder that checks its result')
STATUS['C72'] = ('partial', 'uniqueness, and any k returned is the solution; existence and success of the search are missing')
STATUS['C73'] = ('proved', '')
STATUS['C75'] = ('proved', 'mp.diff is idealised as the derivative; findroot is assumed to check its result')
STATUS['C74'] = ('proved', 'mpmath.quad is modelled as the exact integral')
STATUS['C65'] = ('partial', 'proved for gamma with k > 1, chi2 with k > 2, chi with k > 1; refuted for gamma with k = 1, chi2 with k = 2, chi with k = 1, exponweib with a = 1 or c = 1, genpareto with xi = -1 (upper end) and for kumaraswamy')
STATUS['C56'] = ('partial', 'violated by the code for every scale other than 1: logpdf is too large by log(scale)')
STATUS['C61'] = ('partial', 'violated by the code: refuted for every df when the bracket search hits the root exactly; otherwise proved (C35_studentt_upper_partial)')
STATUS['C55'] = ('proved', 'end points may be infinite; every order of moment')
STATUS['C76'] = ('proved', 'mpmath.nsum is modelled as the exact sum; complex arguments and beta <= 0 are outside the model')
STATUS['C77'] = ('proved', "method='quad', with mpmath.quad modelled as the exact integral; the branch method='nsum' is not modelled")
STATUS['C78'] = ('proved', 'natural numbers n')
STATUS['C79'] = ('partial', 'everything for n = 1, 2, 3; for n >= 4 the nodes are symmetric roots and the weights are the Gauss weights, but that the roots found are distinct and the exactness of the rule are missing')
STATUS['C80'] = ('proved', '')
STATUS['C51'] = ('partial', 'proved for every non-empty list of colors and 0 <= nsample <= sum(colors); refuted for a negative nsample and for no colors')
STATUS['C52'] = ('partial', 'proved for non-empty colors; the part about cov needs sum(colors) >= 2 or nsample = sum(colors), because cov raises otherwise (C63)')
STATUS['C59'] = ('partial', 'proved for r > 0 and 0 < p < 1; refuted at p = 0 (mode -1) and p = 1 (ZeroDivisionError), both of which pass validation')
STATUS['C60'] = ('partial', 'proved except for ntotal = ngood + 1, untilnbad = 1, ngood >= 1, where it is refuted (ZeroDivisionError)')
STATUS['C62'] = ('partial', 'proved for 0 < p < 1; refuted at p = 0 and p = 1 (nan)')
STATUS['C63'] = ('partial', 'proved for sum(colors) >= 2 or everything drawn; refuted (ZeroDivisionError) when the total is 1')
STATUS['C68'] = ('partial', 'proved without counts, or with p below the threshold the code computes; refuted with counts: the threshold ignores them')
