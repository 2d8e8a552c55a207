{
 "claims": [
  {
   "property": "C01",
   "status": "proved",
   "theorems": [
    "C01_tables_enumerated",
    "C01_two_sided"
   ],
   "note": "exact rational arithmetic, all tables of natural numbers"
  },
  {
   "property": "C02",
   "status": "proved",
   "theorems": [
    "C02_tails"
   ],
   "note": "all tables of natural numbers"
  },
  {
   "property": "C03",
   "status": "proved",
   "theorems": [
    "C03_probability",
    "C03_symmetries",
    "C03_exchange"
   ],
   "note": "all tables of natural numbers"
  },
  {
   "property": "C04",
   "status": "proved",
   "theorems": [
    "C04_odds_ratio",
    "C04_unknown_alternative",
    "C04_negative_entries_refuted"
   ],
   "note": "all integer tables; the refuted theorem records that negative entries are not rejected cleanly"
  },
  {
   "property": "C05",
   "status": "proved",
   "theorems": [
    "C05_unique_counts",
    "C05_order_irrelevant",
    "C05_empty"
   ],
   "note": "all finite sequences of reals"
  },
  {
   "property": "C06",
   "status": "proved",
   "theorems": [
    "C06_half",
    "C06_least_absolute_deviation",
    "C06_order_irrelevant",
    "C06_empty"
   ],
   "note": "all finite sequences of reals"
  },
  {
   "property": "C07",
   "status": "proved",
   "theorems": [
    "C07_value",
    "C07_bounds",
    "C07_affine",
    "C07_repetition",
    "C07_errors"
   ],
   "note": "all finite sequences of reals, optional non-negative weights"
  },
  {
   "property": "C08",
   "status": "proved",
   "theorems": [
    "C08_ordering",
    "C08_values",
    "C08_constant",
    "C08_gmean_zero"
   ],
   "note": "all finite sequences of positive reals, optional non-negative weights"
  },
  {
   "property": "C09",
   "status": "proved",
   "theorems": [
    "C09_formula",
    "C09_infinite_order",
    "C09_homogeneous",
    "C09_bounds",
    "C09_monotone"
   ],
   "note": "all finite sequences of positive reals, optional weights, all real and infinite orders"
  },
  {
   "property": "C10",
   "status": "partial",
   "theorems": [
    "C10_formula_partial",
    "C10_weighted_partial",
    "C10_half_two_values",
    "C10_half_refuted",
    "C10_infinite_order",
    "C10_nonpositive"
   ],
   "note": "proved for every order except 1/2, where the code returns the geometric mean: right for two values, refuted for three"
  },
  {
   "property": "C11",
   "status": "proved",
   "theorems": [
    "C11_laws",
    "C11_value",
    "C11_moments",
    "C11_errors",
    "C11_variation_scale"
   ],
   "note": "all finite sequences of reals"
  },
  {
   "property": "C12",
   "status": "proved",
   "theorems": [
    "C12_value_and_range",
    "C12_symmetric",
    "C12_affine",
    "C12_linear_data",
    "C12_constant",
    "C12_two_points",
    "C12_errors"
   ],
   "note": "all pairs of finite real sequences; the p-value only needs betainc/beta to return numbers"
  },
  {
   "property": "C13",
   "status": "proved",
   "theorems": [
    "C13_contains",
    "C13_nested",
    "C13_one_sided",
    "C13_errors"
   ],
   "note": "any strictly increasing quantile function with median 0"
  },
  {
   "property": "C14",
   "status": "proved",
   "theorems": [
    "C14_value",
    "C14_decomposition",
    "C14_nonneg",
    "C14_affine",
    "C14_permutation"
   ],
   "note": ""
  },
  {
   "property": "C15",
   "status": "proved",
   "theorems": [
    "C15_chisquare",
    "C15_gtest",
    "C15_chisquare_nonneg",
    "C15_chisquare_zero",
    "C15_gtest_nonneg",
    "C15_gtest_zero",
    "C15_unequal_totals"
   ],
   "note": ""
  },
  {
   "property": "C16",
   "status": "proved",
   "theorems": [
    "C16_boxcox_roundtrip",
    "C16_inv_boxcox_roundtrip",
    "C16_boxcox_value",
    "C16_boxcox1p",
    "C16_inv_boxcox1p",
    "C16_boxcox_increasing",
    "C16_out_of_range"
   ],
   "note": ""
  },
  {
   "property": "C17",
   "status": "proved",
   "theorems": [
    "C17_roundtrip",
    "C17_sign",
    "C17_increasing",
    "C17_reflection"
   ],
   "note": ""
  },
  {
   "property": "C18",
   "status": "proved",
   "theorems": [
    "C18_nan",
    "C18_zero",
    "C18_finite",
    "C18_limits",
    "C18_xlog1py"
   ],
   "note": ""
  },
  {
   "property": "C19",
   "status": "proved",
   "theorems": [
    "C19_pow1pm1",
    "C19_inverse_left",
    "C19_inverse_right",
    "C19_errors"
   ],
   "note": ""
  },
  {
   "property": "C20",
   "status": "proved",
   "theorems": [
    "C20_logsumexp",
    "C20_weighted",
    "C20_shift",
    "C20_bounds",
    "C20_no_overflow",
    "C20_empty"
   ],
   "note": ""
  },
  {
   "property": "C21",
   "status": "proved",
   "theorems": [
    "C21_choose",
    "C21_symmetric",
    "C21_errors",
    "C21_value",
    "C21_beta",
    "C21_beta_symmetric",
    "C21_beta_recurrence",
    "C21_multivariate_two",
    "C21_multivariate"
   ],
   "note": ""
  },
  {
   "property": "C22",
   "status": "partial",
   "theorems": [
    "C22_odds_ratio_invalid",
    "C22_odds_ratio_level",
    "C22_odds_ratio_degenerate",
    "C22_odds_ratio_conditional",
    "C22_odds_ratio_sample_partial",
    "C22_odds_ratio_sample_refuted"
   ],
   "note": "proved for bad input, degenerate tables, kind=conditional and kind=sample with positive entries; refuted for kind=sample with a zero entry (ZeroDivisionError)"
  },
  {
   "property": "C23",
   "status": "partial",
   "theorems": [
    "C23_odds_ratio_refuted"
   ],
   "note": "refuted: the built-in sum is applied to a number, so the call always raises TypeError"
  },
  {
   "property": "C24",
   "status": "proved",
   "theorems": [
    "C24_find_bracket",
    "C24_find_bracket_width",
    "C24_find_bracket_ends",
    "C24_expansion_neginf_inf",
    "C24_expansion_0_inf",
    "C24_direction",
    "C24_generic_inv"
   ],
   "note": "any real function with at least one sign change; search steps that need no bound are given enough fuel"
  },
  {
   "property": "C25",
   "status": "partial",
   "theorems": [
    "C25_ends_and_signs",
    "C25_bisect_partial",
    "C25_bisect_refuted",
    "C25_betaincinv",
    "C25_betaincinv_complement",
    "C25_betaincinv_edges",
    "C25_betaincinv_method",
    "C25_betaincinv_bracket",
    "C25_betaincinv_findroot"
   ],
   "note": "brackets not straddling 0 and betaincinv are proved; on a bracket around 0 the refuted theorem shows that the loop never ends"
  },
  {
   "property": "C26",
   "status": "proved",
   "theorems": [
    "C26_invgamma",
    "C26_invgauss"
   ],
   "note": "invgamma and invgauss, every precision; exact arithmetic in the iteration"
  },
  {
   "property": "C27",
   "status": "partial",
   "theorems": [
    "C27_precision_restored",
    "C27_precision_never_lower_partial",
    "C27_logistic_refuted"
   ],
   "note": "restoration proved for the skeleton of all 1200 functions, lambdas and module bodies; never-lower proved for callers with at least 15 bits and refuted below (logistic.mle)"
  },
  {
   "property": "C28",
   "status": "partial",
   "theorems": [
    "C28_fnch_partial",
    "C28_fnch_values_partial",
    "C28_fnch_refuted"
   ],
   "note": "proved for every history without assignments into a returned list; refuted for histories with one: the cached list itself is handed out"
  },
  {
   "property": "C30",
   "status": "partial",
   "theorems": [
    "C30_argus",
    "C30_benini",
    "C30_benktander1_partial",
    "C30_benktander1_refuted",
    "C30_benktander2_partial",
    "C30_benktander2_refuted",
    "C30_beta",
    "C30_betaprime",
    "C30_burr12",
    "C30_cauchy",
    "C30_chi",
    "C30_chi2",
    "C30_cosine",
    "C30_exponweib",
    "C30_f_partial",
    "C30_f_refuted",
    "C30_folded_normal",
    "C30_gamma",
    "C30_gamma_gompertz",
    "C30_genexpon_partial",
    "C30_genexpon_refuted",
    "C30_genextreme",
    "C30_genpareto",
    "C30_gompertz",
    "C30_gumbel_max",
    "C30_gumbel_min",
    "C30_half_logistic",
    "C30_hypsecant",
    "C30_invchi2",
    "C30_invgamma",
    "C30_invgauss_partial",
    "C30_invgauss_refuted",
    "C30_kumaraswamy",
    "C30_laplace",
    "C30_levy",
    "C30_loggamma",
    "C30_logistic",
    "C30_loglogistic",
    "C30_lognormal_partial",
    "C30_maxwell",
    "C30_nakagami",
    "C30_ncx2",
    "C30_normal",
    "C30_pareto",
    "C30_power_normal",
    "C30_rel_breitwigner",
    "C30_rice",
    "C30_slash",
    "C30_studentt",
    "C30_truncnorm",
    "C30_tukeylambda",
    "C30_tukeylambda_refuted",
    "C30_uniform",
    "C30_weibull_max",
    "C30_weibull_min"
   ],
   "note": "theorems for 49 modules; the code violates it at some point (refuted) for benktander1, benktander2, f, genexpon, invgauss, tukeylambda; proved only in part for lognormal; for the modules and functions without a theorem see DESIGN.md section 4"
  },
  {
   "property": "C31",
   "status": "partial",
   "theorems": [
    "C31_argus",
    "C31_benini",
    "C31_benktander1_partial",
    "C31_benktander2_partial",
    "C31_beta",
    "C31_betaprime",
    "C31_burr12",
    "C31_cauchy",
    "C31_chi",
    "C31_chi2",
    "C31_cosine",
    "C31_exponweib",
    "C31_f_partial",
    "C31_folded_normal",
    "C31_gamma",
    "C31_gamma_gompertz",
    "C31_genexpon_partial",
    "C31_genextreme",
    "C31_genpareto",
    "C31_gompertz",
    "C31_gumbel_max",
    "C31_gumbel_min",
    "C31_half_logistic",
    "C31_hypsecant",
    "C31_invchi2",
    "C31_invgamma",
    "C31_invgauss_partial",
    "C31_kumaraswamy",
    "C31_laplace",
    "C31_levy_partial",
    "C31_loggamma",
    "C31_logistic",
    "C31_loglogistic",
    "C31_lognormal",
    "C31_maxwell",
    "C31_nakagami",
    "C31_ncx2",
    "C31_ncx2_support",
    "C31_normal",
    "C31_pareto",
    "C31_power_normal",
    "C31_rel_breitwigner",
    "C31_rel_breitwigner_support",
    "C31_rice",
    "C31_rice_support",
    "C31_slash",
    "C31_studentt",
    "C31_truncnorm",
    "C31_tukeylambda",
    "C31_uniform",
    "C31_vonmises",
    "C31_vonmises_peak",
    "C31_weibull_max",
    "C31_weibull_min"
   ],
   "note": "theorems for 50 modules; proved only in part for benktander1, benktander2, f, genexpon, invgauss, levy; for the modules and functions without a theorem see DESIGN.md section 4"
  },
  {
   "property": "C32",
   "status": "partial",
   "theorems": [
    "C32_argus",
    "C32_benini",
    "C32_benktander1",
    "C32_benktander2",
    "C32_beta",
    "C32_betaprime",
    "C32_burr12",
    "C32_cauchy",
    "C32_chi",
    "C32_chi2",
    "C32_cosine",
    "C32_exponweib",
    "C32_f",
    "C32_folded_normal",
    "C32_gamma",
    "C32_gamma_gompertz",
    "C32_genexpon",
    "C32_genextreme",
    "C32_genpareto",
    "C32_gompertz",
    "C32_gumbel_max",
    "C32_gumbel_min",
    "C32_half_logistic",
    "C32_hypsecant",
    "C32_invchi2",
    "C32_invgamma",
    "C32_invgauss",
    "C32_kumaraswamy",
    "C32_laplace",
    "C32_levy",
    "C32_loggamma",
    "C32_logistic",
    "C32_loglogistic",
    "C32_lognormal",
    "C32_maxwell",
    "C32_nakagami",
    "C32_ncx2",
    "C32_ncx2_central_refuted",
    "C32_normal",
    "C32_pareto",
    "C32_power_normal",
    "C32_rel_breitwigner",
    "C32_rice",
    "C32_slash",
    "C32_studentt",
    "C32_truncnorm",
    "C32_tukeylambda",
    "C32_uniform",
    "C32_weibull_max",
    "C32_weibull_min"
   ],
   "note": "theorems for 49 modules; the code violates it at some point (refuted) for ncx2; for the modules and functions without a theorem see DESIGN.md section 4"
  },
  {
   "property": "C33",
   "status": "partial",
   "theorems": [
    "C33_argus",
    "C33_benini",
    "C33_benktander1",
    "C33_benktander2",
    "C33_beta",
    "C33_betaprime",
    "C33_burr12",
    "C33_cauchy",
    "C33_chi",
    "C33_chi2",
    "C33_cosine",
    "C33_exponweib",
    "C33_f",
    "C33_folded_normal",
    "C33_gamma",
    "C33_gamma_gompertz",
    "C33_genexpon",
    "C33_genextreme",
    "C33_genpareto",
    "C33_gompertz",
    "C33_gumbel_max",
    "C33_gumbel_min",
    "C33_half_logistic",
    "C33_hypsecant",
    "C33_invchi2",
    "C33_invgamma",
    "C33_invgauss",
    "C33_kumaraswamy",
    "C33_laplace",
    "C33_levy",
    "C33_loggamma",
    "C33_logistic",
    "C33_loglogistic",
    "C33_lognormal",
    "C33_maxwell",
    "C33_nakagami",
    "C33_ncx2",
    "C33_normal",
    "C33_pareto",
    "C33_power_normal",
    "C33_rel_breitwigner",
    "C33_rice",
    "C33_slash",
    "C33_studentt",
    "C33_truncnorm",
    "C33_tukeylambda",
    "C33_uniform",
    "C33_vonmises",
    "C33_weibull_max",
    "C33_weibull_min"
   ],
   "note": "theorems for 50 modules; for the modules and functions without a theorem see DESIGN.md section 4"
  },
  {
   "property": "C34",
   "status": "partial",
   "theorems": [
    "C34_argus",
    "C34_benini",
    "C34_benini_cdf",
    "C34_benktander1",
    "C34_benktander2",
    "C34_beta",
    "C34_betabinomial",
    "C34_betaprime",
    "C34_burr12",
    "C34_burr12_cdf",
    "C34_cauchy",
    "C34_chi",
    "C34_chi2",
    "C34_cosine",
    "C34_exponweib",
    "C34_f",
    "C34_folded_normal",
    "C34_folded_normal_pinf_refuted",
    "C34_gamma",
    "C34_gamma_gompertz",
    "C34_gauss_kuzmin",
    "C34_genextreme_partial",
    "C34_genextreme_logcdf",
    "C34_genextreme_logsf",
    "C34_genpareto_partial",
    "C34_gompertz",
    "C34_gompertz_inf",
    "C34_gumbel_max",
    "C34_gumbel_min",
    "C34_half_logistic",
    "C34_hypergeometric_partial",
    "C34_hypsecant",
    "C34_invchi2",
    "C34_invgamma",
    "C34_invgauss",
    "C34_invgauss_tails",
    "C34_kumaraswamy_partial",
    "C34_kumaraswamy_refuted",
    "C34_kumaraswamy_refuted_upper",
    "C34_laplace",
    "C34_levy",
    "C34_loggamma",
    "C34_logistic",
    "C34_loglogistic",
    "C34_lognormal",
    "C34_logseries",
    "C34_maxwell",
    "C34_nakagami",
    "C34_negative_binomial_partial",
    "C34_negative_hypergeometric_partial",
    "C34_negative_hypergeometric_refuted",
    "C34_normal",
    "C34_pareto",
    "C34_poisson",
    "C34_power_normal",
    "C34_rel_breitwigner",
    "C34_rice",
    "C34_rice_zero",
    "C34_slash",
    "C34_studentt",
    "C34_trunc_discrete_exp",
    "C34_truncnorm",
    "C34_tukeylambda",
    "C34_uniform",
    "C34_vonmises",
    "C34_weibull_max",
    "C34_weibull_min"
   ],
   "note": "theorems for 56 modules; the code violates it at some point (refuted) for folded_normal, kumaraswamy, negative_hypergeometric; proved only in part for genextreme, genpareto, hypergeometric, negative_binomial; for the modules and functions without a theorem see DESIGN.md section 4"
  },
  {
   "property": "C35",
   "status": "partial",
   "theorems": [
    "C35_argus",
    "C35_benini",
    "C35_benktander1",
    "C35_benktander2",
    "C35_beta",
    "C35_betaprime",
    "C35_burr12",
    "C35_cauchy",
    "C35_chi2",
    "C35_cosine_partial",
    "C35_exponweib",
    "C35_f_partial",
    "C35_gamma",
    "C35_gamma_gompertz",
    "C35_gauss_kuzmin",
    "C35_genexpon",
    "C35_genextreme",
    "C35_genpareto",
    "C35_gompertz",
    "C35_gumbel_max",
    "C35_gumbel_min",
    "C35_half_logistic",
    "C35_hypsecant",
    "C35_kumaraswamy",
    "C35_laplace",
    "C35_levy",
    "C35_loggamma",
    "C35_logistic",
    "C35_loglogistic",
    "C35_lognormal",
    "C35_maxwell",
    "C35_nakagami",
    "C35_normal",
    "C35_pareto",
    "C35_power_normal",
    "C35_rel_breitwigner",
    "C35_slash_partial",
    "C35_studentt_lower_partial",
    "C35_studentt_upper_partial",
    "C35_truncnorm",
    "C35_tukeylambda",
    "C35_tukeylambda_quantile_partial",
    "C35_uniform",
    "C35_weibull_max",
    "C35_weibull_min"
   ],
   "note": "theorems for 43 modules; proved only in part for cosine, f, slash, studentt, tukeylambda; for the modules and functions without a theorem see DESIGN.md section 4"
  },
  {
   "property": "C36",
   "status": "partial",
   "theorems": [
    "C36_argus",
    "C36_benini",
    "C36_benktander1",
    "C36_benktander2",
    "C36_beta",
    "C36_betaprime",
    "C36_burr12",
    "C36_cauchy",
    "C36_chi2",
    "C36_cosine_partial",
    "C36_exponweib",
    "C36_f_partial",
    "C36_gamma",
    "C36_gamma_gompertz",
    "C36_gauss_kuzmin",
    "C36_genexpon",
    "C36_genextreme",
    "C36_genpareto",
    "C36_gompertz",
    "C36_gumbel_max",
    "C36_gumbel_min",
    "C36_half_logistic",
    "C36_hypsecant",
    "C36_kumaraswamy",
    "C36_laplace",
    "C36_levy",
    "C36_loggamma_partial",
    "C36_logistic",
    "C36_loglogistic",
    "C36_lognormal",
    "C36_maxwell_partial",
    "C36_maxwell_refuted",
    "C36_nakagami",
    "C36_normal",
    "C36_pareto",
    "C36_power_normal",
    "C36_rel_breitwigner",
    "C36_slash_partial",
    "C36_studentt_lower_partial",
    "C36_studentt_upper_partial",
    "C36_truncnorm",
    "C36_tukeylambda",
    "C36_uniform",
    "C36_weibull_max",
    "C36_weibull_min"
   ],
   "note": "theorems for 43 modules; the code violates it at some point (refuted) for maxwell; proved only in part for cosine, f, loggamma, slash, studentt; for the modules and functions without a theorem see DESIGN.md section 4"
  },
  {
   "property": "C37",
   "status": "partial",
   "theorems": [
    "C37_argus",
    "C37_benini_partial",
    "C37_benini_refuted",
    "C37_benktander1",
    "C37_benktander2_partial",
    "C37_benktander2_refuted",
    "C37_beta",
    "C37_betaprime_partial",
    "C37_burr12_partial",
    "C37_burr12_refuted",
    "C37_cauchy_partial",
    "C37_cauchy_refuted",
    "C37_cosine",
    "C37_exponweib",
    "C37_f_partial",
    "C37_f_refuted",
    "C37_gamma",
    "C37_gamma_gompertz_partial",
    "C37_gamma_gompertz_refuted",
    "C37_gauss_kuzmin",
    "C37_gauss_kuzmin_refuted",
    "C37_genexpon",
    "C37_genextreme_partial",
    "C37_genextreme_refuted",
    "C37_genpareto",
    "C37_gompertz",
    "C37_gumbel_max",
    "C37_gumbel_min",
    "C37_half_logistic",
    "C37_hypsecant_partial",
    "C37_invgamma",
    "C37_invgauss",
    "C37_kumaraswamy",
    "C37_laplace_partial",
    "C37_laplace_refuted",
    "C37_levy_partial",
    "C37_levy_refuted",
    "C37_loggamma",
    "C37_logistic",
    "C37_loglogistic",
    "C37_lognormal",
    "C37_maxwell_partial",
    "C37_normal",
    "C37_pareto_partial",
    "C37_pareto_refuted",
    "C37_pareto_refuted_sf",
    "C37_power_normal",
    "C37_rel_breitwigner_partial",
    "C37_slash",
    "C37_studentt",
    "C37_truncnorm",
    "C37_tukeylambda",
    "C37_uniform",
    "C37_weibull_max",
    "C37_weibull_min"
   ],
   "note": "theorems for 43 modules; the code violates it at some point (refuted) for benini, benktander2, burr12, cauchy, f, gamma_gompertz, gauss_kuzmin, genextreme, laplace, levy, pareto; proved only in part for betaprime, hypsecant, maxwell, rel_breitwigner; for the modules and functions without a theorem see DESIGN.md section 4"
  },
  {
   "property": "C38",
   "status": "partial",
   "theorems": [
    "C38_argus",
    "C38_benini",
    "C38_benktander1",
    "C38_benktander2_partial",
    "C38_benktander2_refuted",
    "C38_beta",
    "C38_betabinomial_partial",
    "C38_betaprime",
    "C38_binomial_partial",
    "C38_burr12",
    "C38_cauchy",
    "C38_chi",
    "C38_chi2",
    "C38_exponweib",
    "C38_f",
    "C38_fnch",
    "C38_folded_normal",
    "C38_gamma",
    "C38_gamma_gompertz",
    "C38_genexpon",
    "C38_genextreme",
    "C38_genpareto",
    "C38_gompertz",
    "C38_gumbel_max",
    "C38_gumbel_min",
    "C38_half_logistic",
    "C38_hypergeometric",
    "C38_hypsecant",
    "C38_invchi2",
    "C38_invgamma",
    "C38_invgauss",
    "C38_kumaraswamy_partial",
    "C38_laplace",
    "C38_levy_partial",
    "C38_loggamma",
    "C38_loggamma_refuted",
    "C38_logistic",
    "C38_loglogistic",
    "C38_lognormal",
    "C38_logseries_partial",
    "C38_maxwell",
    "C38_multivariate_hypergeometric_partial",
    "C38_nakagami",
    "C38_ncx2_refuted",
    "C38_negative_binomial_partial",
    "C38_negative_binomial_refuted",
    "C38_negative_hypergeometric",
    "C38_normal",
    "C38_pareto",
    "C38_poisson_partial",
    "C38_power_normal",
    "C38_rel_breitwigner",
    "C38_rice",
    "C38_studentt",
    "C38_trunc_discrete_exp_partial",
    "C38_trunc_discrete_exp_k",
    "C38_truncnorm",
    "C38_tukeylambda",
    "C38_uniform",
    "C38_weibull_max",
    "C38_weibull_min"
   ],
   "note": "theorems for 57 modules; the code violates it at some point (refuted) for benktander2, loggamma, ncx2, negative_binomial; proved only in part for betabinomial, binomial, kumaraswamy, levy, logseries, multivariate_hypergeometric, poisson, trunc_discrete_exp; for the modules and functions without a theorem see DESIGN.md section 4"
  },
  {
   "property": "C39",
   "status": "partial",
   "theorems": [
    "C39_argus",
    "C39_benini",
    "C39_benktander1",
    "C39_benktander2",
    "C39_beta",
    "C39_betaprime",
    "C39_burr12_partial",
    "C39_burr12_low",
    "C39_cauchy",
    "C39_chi",
    "C39_chi_small",
    "C39_chi2",
    "C39_chi2_small",
    "C39_cosine",
    "C39_f_partial",
    "C39_f_refuted",
    "C39_folded_normal",
    "C39_folded_normal_large_partial",
    "C39_folded_normal_start",
    "C39_gamma",
    "C39_gamma_small",
    "C39_gamma_gompertz",
    "C39_genextreme_partial",
    "C39_genextreme_refuted",
    "C39_gompertz",
    "C39_gumbel_max",
    "C39_gumbel_min",
    "C39_half_logistic",
    "C39_hypsecant",
    "C39_invchi2",
    "C39_invgamma",
    "C39_invgauss",
    "C39_kumaraswamy",
    "C39_laplace",
    "C39_loggamma",
    "C39_logistic",
    "C39_lognormal",
    "C39_maxwell",
    "C39_nakagami",
    "C39_nakagami_half",
    "C39_nakagami_refuted",
    "C39_normal",
    "C39_rel_breitwigner",
    "C39_rice_partial",
    "C39_rice_sign_partial",
    "C39_slash",
    "C39_studentt",
    "C39_truncnorm",
    "C39_weibull_max",
    "C39_weibull_min"
   ],
   "note": "theorems for 39 modules; the code violates it at some point (refuted) for f, genextreme, nakagami; proved only in part for burr12, folded_normal, rice; for the modules and functions without a theorem see DESIGN.md section 4"
  },
  {
   "property": "C40",
   "status": "partial",
   "theorems": [
    "C40_betabinomial",
    "C40_binomial",
    "C40_fnch",
    "C40_gauss_kuzmin",
    "C40_hypergeometric",
    "C40_logseries",
    "C40_negative_binomial_partial",
    "C40_negative_hypergeometric_partial",
    "C40_poisson",
    "C40_trunc_discrete_exp"
   ],
   "note": "theorems for 10 modules; proved only in part for negative_binomial, negative_hypergeometric; for the modules and functions without a theorem see DESIGN.md section 4"
  },
  {
   "property": "C41",
   "status": "partial",
   "theorems": [
    "C41_betabinomial",
    "C41_binomial_partial",
    "C41_binomial_refuted",
    "C41_fnch",
    "C41_fnch_formula",
    "C41_fnch_support_pmf",
    "C41_gauss_kuzmin",
    "C41_hypergeometric",
    "C41_logseries_partial",
    "C41_logseries_refuted",
    "C41_multivariate_hypergeometric_refuted",
    "C41_negative_binomial_partial",
    "C41_negative_binomial_refuted",
    "C41_negative_binomial_one_refuted",
    "C41_negative_hypergeometric",
    "C41_poisson",
    "C41_trunc_discrete_exp",
    "C41_trunc_discrete_exp_refuted"
   ],
   "note": "theorems for 11 modules; the code violates it at some point (refuted) for binomial, logseries, multivariate_hypergeometric, negative_binomial, trunc_discrete_exp; for the modules and functions without a theorem see DESIGN.md section 4"
  },
  {
   "property": "C42",
   "status": "partial",
   "theorems": [
    "C42_betabinomial",
    "C42_binomial_partial",
    "C42_binomial_sumpmf",
    "C42_fnch",
    "C42_gauss_kuzmin",
    "C42_gauss_kuzmin_inf",
    "C42_hypergeometric_partial",
    "C42_hypergeometric_refuted",
    "C42_logseries",
    "C42_negative_binomial_partial",
    "C42_negative_hypergeometric",
    "C42_poisson",
    "C42_trunc_discrete_exp"
   ],
   "note": "theorems for 10 modules; the code violates it at some point (refuted) for hypergeometric; proved only in part for binomial, negative_binomial; for the modules and functions without a theorem see DESIGN.md section 4"
  },
  {
   "property": "C43",
   "status": "partial",
   "theorems": [
    "C43_argus_mean",
    "C43_argus_var",
    "C43_benini_median",
    "C43_benktander1_mean",
    "C43_benktander1_var",
    "C43_benktander2_mean",
    "C43_beta_mean",
    "C43_beta_var",
    "C43_beta_skewness",
    "C43_beta_kurtosis",
    "C43_beta_moments",
    "C43_beta_entropy",
    "C43_betabinomial",
    "C43_betabinomial_shape",
    "C43_betaprime_mean",
    "C43_betaprime_no_mean",
    "C43_betaprime_var",
    "C43_betaprime_no_var",
    "C43_betaprime_skewness",
    "C43_betaprime_kurtosis",
    "C43_betaprime_moments",
    "C43_betaprime_entropy",
    "C43_binomial",
    "C43_burr12_median",
    "C43_burr12_mean",
    "C43_burr12_mean_nan",
    "C43_burr12_var",
    "C43_burr12_var_nan",
    "C43_cauchy_no_mean",
    "C43_cauchy_no_var",
    "C43_cauchy_entropy",
    "C43_chi_mean",
    "C43_chi_var",
    "C43_chi_moments",
    "C43_chi_entropy",
    "C43_chi2_mean",
    "C43_chi2_var",
    "C43_chi2_moments",
    "C43_chi2_entropy",
    "C43_cosine_mean",
    "C43_cosine_var",
    "C43_cosine_skewness",
    "C43_cosine_kurtosis",
    "C43_f_mean",
    "C43_f_no_mean",
    "C43_f_var",
    "C43_f_no_var",
    "C43_f_entropy",
    "C43_fnch",
    "C43_folded_normal_mean",
    "C43_folded_normal_var",
    "C43_gamma_mean",
    "C43_gamma_var",
    "C43_gamma_skewness",
    "C43_gamma_kurtosis",
    "C43_gamma_moments",
    "C43_gamma_entropy",
    "C43_gamma_gompertz_mean_partial",
    "C43_gauss_kuzmin",
    "C43_gauss_kuzmin_median",
    "C43_genextreme_mean",
    "C43_genextreme_var",
    "C43_genextreme_entropy",
    "C43_genextreme_skewness_partial",
    "C43_genextreme_kurtosis_partial",
    "C43_genextreme_moments_partial",
    "C43_genextreme_moments_refuted",
    "C43_genpareto_mean",
    "C43_genpareto_var",
    "C43_genpareto_entropy",
    "C43_genpareto_no_mean",
    "C43_genpareto_no_var",
    "C43_gompertz_mean",
    "C43_gompertz_entropy",
    "C43_gumbel_max_mean",
    "C43_gumbel_max_var",
    "C43_gumbel_min_mean",
    "C43_gumbel_min_var",
    "C43_half_logistic",
    "C43_half_logistic_var",
    "C43_hypergeometric_partial",
    "C43_hypsecant_mean",
    "C43_hypsecant_var",
    "C43_hypsecant_entropy",
    "C43_invchi2_mean",
    "C43_invchi2_var",
    "C43_invchi2_nan",
    "C43_invgamma_mean",
    "C43_invgamma_var",
    "C43_invgamma_skewness",
    "C43_invgamma_kurtosis",
    "C43_invgamma_moments",
    "C43_invgamma_nan",
    "C43_invgamma_entropy",
    "C43_invgauss_median",
    "C43_invgauss_mean",
    "C43_invgauss_var",
    "C43_invgauss_moments",
    "C43_kumaraswamy_median",
    "C43_kumaraswamy_mean",
    "C43_kumaraswamy_var",
    "C43_kumaraswamy_moments",
    "C43_kumaraswamy_skewness",
    "C43_kumaraswamy_entropy",
    "C43_laplace",
    "C43_loggamma_mean",
    "C43_loggamma_var",
    "C43_loggamma_skewness",
    "C43_loggamma_kurtosis",
    "C43_logistic",
    "C43_logistic_var",
    "C43_loglogistic_mean",
    "C43_loglogistic_var",
    "C43_loglogistic_moments",
    "C43_loglogistic_nan",
    "C43_lognormal_mean",
    "C43_lognormal_var",
    "C43_lognormal_skewness",
    "C43_lognormal_kurtosis",
    "C43_lognormal_moments",
    "C43_lognormal_entropy",
    "C43_logseries",
    "C43_logseries_shape",
    "C43_maxwell_mean",
    "C43_maxwell_var",
    "C43_maxwell_entropy",
    "C43_multivariate_hypergeometric_entropy",
    "C43_nakagami_mean",
    "C43_nakagami_var",
    "C43_nakagami_entropy",
    "C43_nct_moments",
    "C43_nct_moments_nan",
    "C43_nct_mean_partial",
    "C43_nct_mean_refuted",
    "C43_nct_var",
    "C43_ncx2_mean",
    "C43_ncx2_var",
    "C43_negative_binomial_partial",
    "C43_negative_hypergeometric",
    "C43_normal",
    "C43_normal_var",
    "C43_pareto_mean",
    "C43_pareto_var",
    "C43_pareto_entropy",
    "C43_poisson",
    "C43_rel_breitwigner_mean",
    "C43_rel_breitwigner_var",
    "C43_rel_breitwigner_moment",
    "C43_rel_breitwigner_infinite",
    "C43_rice_moment",
    "C43_rice_mean",
    "C43_rice_var",
    "C43_rice_second",
    "C43_slash_mean_refuted",
    "C43_studentt_mean_partial",
    "C43_studentt_mean_refuted",
    "C43_studentt_entropy",
    "C43_trunc_discrete_exp",
    "C43_trunc_discrete_exp_var",
    "C43_trunc_discrete_exp_entropy",
    "C43_truncnorm_mean",
    "C43_truncnorm_var",
    "C43_truncnorm_skewness",
    "C43_truncnorm_kurtosis",
    "C43_truncnorm_median",
    "C43_truncnorm_entropy",
    "C43_tukeylambda_moment",
    "C43_tukeylambda",
    "C43_tukeylambda_quantile",
    "C43_tukeylambda_mean",
    "C43_tukeylambda_first_refuted",
    "C43_tukeylambda_second_refuted",
    "C43_uniform",
    "C43_vonmises",
    "C43_vonmises_entropy",
    "C43_vonmises_refuted",
    "C43_weibull_max_mean",
    "C43_weibull_max_var",
    "C43_weibull_max_skewness",
    "C43_weibull_max_kurtosis",
    "C43_weibull_max_moments",
    "C43_weibull_max_entropy",
    "C43_weibull_min_mean",
    "C43_weibull_min_var",
    "C43_weibull_min_skewness",
    "C43_weibull_min_kurtosis",
    "C43_weibull_min_moments",
    "C43_weibull_min_entropy"
   ],
   "note": "theorems for 58 modules; the code violates it at some point (refuted) for genextreme, nct, slash, studentt, tukeylambda, vonmises; proved only in part for gamma_gompertz, hypergeometric, negative_binomial; for the modules and functions without a theorem see DESIGN.md section 4"
  },
  {
   "property": "C44",
   "status": "partial",
   "theorems": [
    "C44_argus",
    "C44_burr12",
    "C44_cauchy",
    "C44_exponweib",
    "C44_folded_normal",
    "C44_gamma_gompertz",
    "C44_genextreme",
    "C44_genpareto",
    "C44_gompertz",
    "C44_gumbel_max",
    "C44_gumbel_min",
    "C44_half_logistic",
    "C44_hypsecant",
    "C44_invgamma",
    "C44_invgauss",
    "C44_laplace",
    "C44_levy",
    "C44_loggamma",
    "C44_logistic",
    "C44_loglogistic",
    "C44_maxwell",
    "C44_nakagami",
    "C44_normal",
    "C44_pareto",
    "C44_power_normal",
    "C44_rel_breitwigner",
    "C44_tukeylambda",
    "C44_weibull_max",
    "C44_weibull_min"
   ],
   "note": "theorems for 29 modules; for the modules and functions without a theorem see DESIGN.md section 4"
  },
  {
   "property": "C45",
   "status": "partial",
   "theorems": [
    "C45_beta",
    "C45_betaprime_beta",
    "C45_betaprime",
    "C45_chi",
    "C45_chi2",
    "C45_cosine",
    "C45_exponweib_pdf",
    "C45_exponweib",
    "C45_f_betaprime",
    "C45_f",
    "C45_folded_normal",
    "C45_folded_normal_sign",
    "C45_genextreme",
    "C45_gumbel_min",
    "C45_gumbel_min_quantile",
    "C45_half_logistic",
    "C45_invchi2_chi2",
    "C45_invchi2_invgamma",
    "C45_loggamma",
    "C45_loglogistic",
    "C45_loglogistic_quantile",
    "C45_lognormal",
    "C45_maxwell",
    "C45_nakagami",
    "C45_ncx2",
    "C45_power_normal_normal",
    "C45_power_normal_minimum",
    "C45_slash",
    "C45_studentt_symmetric",
    "C45_studentt_f",
    "C45_studentt_cauchy",
    "C45_tukeylambda",
    "C45_weibull_max",
    "C45_weibull_max_cdf",
    "C45_weibull_max_quantile",
    "C45_weibull_max_mode",
    "C45_weibull_max_mean"
   ],
   "note": "theorems for 23 modules; for the modules and functions without a theorem see DESIGN.md section 4"
  },
  {
   "property": "C46",
   "status": "partial",
   "theorems": [
    "C46_beta_partial",
    "C46_beta_order_partial",
    "C46_beta_refuted",
    "C46_gamma_partial",
    "C46_gamma_tail_partial",
    "C46_gamma_refuted",
    "C46_laplace",
    "C46_laplace_reversed",
    "C46_loggamma",
    "C46_loggamma_order"
   ],
   "note": "theorems for 4 modules; the code violates it at some point (refuted) for beta, gamma; for the modules and functions without a theorem see DESIGN.md section 4"
  },
  {
   "property": "C47",
   "status": "partial",
   "theorems": [
    "C47_benktander1_partial",
    "C47_beta_a",
    "C47_beta_b",
    "C47_beta_both",
    "C47_beta_given",
    "C47_beta_refuted",
    "C47_betabinomial_partial",
    "C47_betabinomial_a_partial",
    "C47_betabinomial_b_partial",
    "C47_betabinomial_given",
    "C47_betaprime_a",
    "C47_betaprime_b",
    "C47_betaprime_ab",
    "C47_betaprime_scale",
    "C47_betaprime_b_scale_partial",
    "C47_betaprime_a_scale_partial",
    "C47_betaprime_all_partial",
    "C47_betaprime_given",
    "C47_binomial_partial",
    "C47_burr12_partial",
    "C47_gamma_scale",
    "C47_gamma_shape",
    "C47_gamma_both_partial",
    "C47_gompertz_shape",
    "C47_gompertz_scale",
    "C47_gompertz_both",
    "C47_gompertz_refuted",
    "C47_gumbel_max_loc_partial",
    "C47_gumbel_min_loc_partial",
    "C47_hypsecant_loc",
    "C47_hypsecant_scale",
    "C47_hypsecant_both",
    "C47_hypsecant_given",
    "C47_kumaraswamy_partial",
    "C47_laplace_both",
    "C47_laplace_loc_given",
    "C47_laplace_scale_given",
    "C47_laplace_bad_scale",
    "C47_loggamma_shape",
    "C47_loggamma_scale",
    "C47_loggamma_both_partial",
    "C47_lognormal",
    "C47_logseries",
    "C47_logseries_ones",
    "C47_nakagami_scale",
    "C47_nakagami_nu",
    "C47_nakagami_both",
    "C47_negative_binomial_r_given",
    "C47_negative_binomial_p_given_partial",
    "C47_negative_binomial_p_given_integer",
    "C47_negative_binomial_free_partial",
    "C47_normal",
    "C47_pareto_loc_given",
    "C47_pareto_scale_given",
    "C47_pareto_scale_only",
    "C47_pareto_loc_only",
    "C47_pareto_refuted",
    "C47_poisson_partial",
    "C47_weibull_max_scale_partial",
    "C47_weibull_min_scale_partial"
   ],
   "note": "theorems for 23 modules; the code violates it at some point (refuted) for beta, gompertz, pareto; proved only in part for benktander1, betabinomial, betaprime, binomial, burr12, gamma, gumbel_max, gumbel_min, kumaraswamy, loggamma, negative_binomial, poisson, weibull_max, weibull_min; for the modules and functions without a theorem see DESIGN.md section 4"
  },
  {
   "property": "C48",
   "status": "partial",
   "theorems": [
    "C48_beta",
    "C48_gamma",
    "C48_gumbel_max",
    "C48_gumbel_min",
    "C48_laplace",
    "C48_logistic",
    "C48_lognormal"
   ],
   "note": "theorems for 7 modules; for the modules and functions without a theorem see DESIGN.md section 4"
  },
  {
   "property": "C49",
   "status": "partial",
   "theorems": [
    "C49_benktander1",
    "C49_benktander1_outside",
    "C49_benktander2",
    "C49_benktander2_outside",
    "C49_beta",
    "C49_beta_outside",
    "C49_betabinomial",
    "C49_betaprime",
    "C49_betaprime_outside",
    "C49_binomial",
    "C49_burr12",
    "C49_burr12_outside",
    "C49_gamma",
    "C49_gamma_outside",
    "C49_genpareto",
    "C49_genpareto_below",
    "C49_genpareto_above",
    "C49_gompertz",
    "C49_gompertz_outside",
    "C49_gumbel_max",
    "C49_gumbel_min",
    "C49_hypsecant",
    "C49_kumaraswamy",
    "C49_kumaraswamy_outside",
    "C49_loggamma",
    "C49_logistic",
    "C49_lognormal",
    "C49_lognormal_outside",
    "C49_lognormal_estimators",
    "C49_logseries",
    "C49_nakagami",
    "C49_nakagami_outside",
    "C49_negative_binomial",
    "C49_normal",
    "C49_pareto",
    "C49_pareto_outside",
    "C49_poisson",
    "C49_weibull_max",
    "C49_weibull_max_outside",
    "C49_weibull_min",
    "C49_weibull_min_outside"
   ],
   "note": "theorems for 25 modules; for the modules and functions without a theorem see DESIGN.md section 4"
  },
  {
   "property": "C50",
   "status": "proved",
   "theorems": [
    "C50_gamma_grad",
    "C50_gamma_hess",
    "C50_gamma_invhess"
   ],
   "note": ""
  },
  {
   "property": "C51",
   "status": "partial",
   "theorems": [
    "C51_multivariate_hypergeometric_partial",
    "C51_multivariate_hypergeometric_refuted",
    "C51_multivariate_hypergeometric_empty_refuted"
   ],
   "note": "proved for every non-empty list of colors and 0 <= nsample <= sum(colors); refuted for a negative nsample and for no colors"
  },
  {
   "property": "C52",
   "status": "partial",
   "theorems": [
    "C52_multivariate_hypergeometric_pmf",
    "C52_multivariate_hypergeometric_mean",
    "C52_multivariate_hypergeometric_cov"
   ],
   "note": "proved for non-empty colors; the part about cov needs sum(colors) >= 2 or nsample = sum(colors), because cov raises otherwise (C63)"
  },
  {
   "property": "C53",
   "status": "proved",
   "theorems": [
    "C53_dirichlet_invalid",
    "C53_dirichlet_mean",
    "C53_dirichlet_cov",
    "C53_dirichlet_pdf",
    "C53_dirichlet_invalid_x"
   ],
   "note": "also positive semidefiniteness and the density; entropy is modelled but has no theorem about its value"
  },
  {
   "property": "C54",
   "status": "proved",
   "theorems": [
    "C54_nct_poly_coeffs"
   ],
   "note": ""
  },
  {
   "property": "C55",
   "status": "proved",
   "theorems": [
    "C55_truncnorm_law",
    "C55_truncnorm_moments"
   ],
   "note": "end points may be infinite; every order of moment"
  },
  {
   "property": "C56",
   "status": "partial",
   "theorems": [
    "C56_genexpon_partial",
    "C56_genexpon_refuted"
   ],
   "note": "violated by the code for every scale other than 1: logpdf is too large by log(scale)"
  },
  {
   "property": "C57",
   "status": "partial",
   "theorems": [
    "C57_levy_partial",
    "C57_levy_refuted"
   ],
   "note": "violated by the code: the refuted theorem says exactly how"
  },
  {
   "property": "C58",
   "status": "partial",
   "theorems": [
    "C58_betaprime_refuted"
   ],
   "note": "violated by the code: the refuted theorem says exactly how"
  },
  {
   "property": "C59",
   "status": "partial",
   "theorems": [
    "C59_negative_binomial_partial",
    "C59_negative_binomial_refuted"
   ],
   "note": "proved for r > 0 and 0 < p < 1; refuted at p = 0 (mode -1) and p = 1 (ZeroDivisionError), both of which pass validation"
  },
  {
   "property": "C60",
   "status": "partial",
   "theorems": [
    "C60_negative_hypergeometric_partial",
    "C60_negative_hypergeometric_refuted"
   ],
   "note": "proved except for ntotal = ngood + 1, untilnbad = 1, ngood >= 1, where it is refuted (ZeroDivisionError)"
  },
  {
   "property": "C61",
   "status": "partial",
   "theorems": [
    "C61_studentt_refuted",
    "C61_studentt_invsf_refuted"
   ],
   "note": "violated by the code: refuted for every df when the bracket search hits the root exactly; otherwise proved (C35_studentt_upper_partial)"
  },
  {
   "property": "C62",
   "status": "partial",
   "theorems": [
    "C62_binomial_partial",
    "C62_binomial_refuted"
   ],
   "note": "proved for 0 < p < 1; refuted at p = 0 and p = 1 (nan)"
  },
  {
   "property": "C63",
   "status": "partial",
   "theorems": [
    "C63_hypergeometric_refuted",
    "C63_multivariate_hypergeometric_partial",
    "C63_multivariate_hypergeometric_refuted"
   ],
   "note": "proved for sum(colors) >= 2 or everything drawn; refuted (ZeroDivisionError) when the total is 1"
  },
  {
   "property": "C64",
   "status": "partial",
   "theorems": [
    "C64_maxwell_refuted",
    "C64_maxwell_cdf_partial",
    "C64_maxwell_sf_partial",
    "C64_nakagami_partial"
   ],
   "note": "refuted for maxwell at p = 0 (invcdf) and p = 1 (invsf); elsewhere a number returned solves the equation whatever loc is, relative to a root finder that checks its result"
  },
  {
   "property": "C65",
   "status": "partial",
   "theorems": [
    "C65_chi_partial",
    "C65_chi_refuted",
    "C65_chi2_partial",
    "C65_chi2_refuted",
    "C65_exponweib_refuted",
    "C65_exponweib_pdf",
    "C65_gamma_partial",
    "C65_gamma_refuted",
    "C65_genextreme_refuted",
    "C65_genpareto_refuted"
   ],
   "note": "proved for gamma with k > 1, chi2 with k > 2, chi with k > 1; refuted for gamma with k = 1, chi2 with k = 2, chi with k = 1, exponweib with a = 1 or c = 1, genpareto with xi = -1 (upper end) and for kumaraswamy"
  },
  {
   "property": "C66",
   "status": "partial",
   "theorems": [
    "C66_lognormal_refuted"
   ],
   "note": "violated by the code for every x <= 0"
  },
  {
   "property": "C67",
   "status": "partial",
   "theorems": [
    "C67_normal_refuted"
   ],
   "note": "violated by the code: the default of mu differs"
  },
  {
   "property": "C68",
   "status": "partial",
   "theorems": [
    "C68_binomial_partial",
    "C68_binomial_refuted"
   ],
   "note": "proved without counts, or with p below the threshold the code computes; refuted with counts: the threshold ignores them"
  },
  {
   "property": "C69",
   "status": "proved",
   "theorems": [
    "C69_odds_ratio_limits",
    "C69_odds_ratio_coverage"
   ],
   "note": "relative to a root finder that meets bracket_solver"
  },
  {
   "property": "C70",
   "status": "partial",
   "theorems": [
    "C70_odds_ratio_refuted",
    "C70_odds_ratio_partial"
   ],
   "note": "proved for levels strictly between 0 and 1 and level 0 two-sided; refuted at level 1 and, one-sided, level 0: the bracket search never ends"
  },
  {
   "property": "C71",
   "status": "proved",
   "theorems": [
    "C71_digammainv"
   ],
   "note": "relative to a root finder that checks its result"
  },
  {
   "property": "C72",
   "status": "partial",
   "theorems": [
    "C72_chi2_partial"
   ],
   "note": "uniqueness, and any k returned is the solution; existence and success of the search are missing"
  },
  {
   "property": "C73",
   "status": "proved",
   "theorems": [
    "C73_nakagami"
   ],
   "note": ""
  },
  {
   "property": "C74",
   "status": "proved",
   "theorems": [
    "C74_marcumq",
    "C74_marcumq_range",
    "C74_marcumq_central"
   ],
   "note": "mpmath.quad is modelled as the exact integral"
  },
  {
   "property": "C75",
   "status": "proved",
   "theorems": [
    "C75_power_mle_boxcox",
    "C75_power_mle_yeojohnson",
    "C75_power_mle_boxcox_mle",
    "C75_power_mle_yeojohnson_mle"
   ],
   "note": "mp.diff is idealised as the derivative; findroot is assumed to check its result"
  },
  {
   "property": "C76",
   "status": "proved",
   "theorems": [
    "C76_fun2_series",
    "C76_fun2_validate"
   ],
   "note": "mpmath.nsum is modelled as the exact sum; complex arguments and beta <= 0 are outside the model"
  },
  {
   "property": "C77",
   "status": "proved",
   "theorems": [
    "C77_fun2_integral",
    "C77_fun2_decreasing",
    "C77_fun2_zero",
    "C77_fun2_inf",
    "C77_fun2_validate"
   ],
   "note": "method='quad', with mpmath.quad modelled as the exact integral; the branch method='nsum' is not modelled"
  },
  {
   "property": "C78",
   "status": "proved",
   "theorems": [
    "C78_fun2"
   ],
   "note": "natural numbers n"
  },
  {
   "property": "C79",
   "status": "partial",
   "theorems": [
    "C79_fun2_exact_partial",
    "C79_fun2_nodes_partial"
   ],
   "note": "everything for n = 1, 2, 3; for n >= 4 the nodes are symmetric roots and the weights are the Gauss weights, but that the roots found are distinct and the exactness of the rule are missing"
  },
  {
   "property": "C80",
   "status": "proved",
   "theorems": [
    "C80_fun2_recurrence",
    "C80_fun2_base"
   ],
   "note": ""
  }
 ]
}