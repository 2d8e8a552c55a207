-Q theories Verif
theories/BetaLib.v
theories/BinLib.v
theories/BisLib.v
theories/BpLib.v
theories/ConvMle.v
theories/CountLib.v
theories/DiscLib.v
theories/DiscLib2.v
theories/DistLS.v
theories/DistLib.v
theories/DistSc.v
theories/E1Lib.v
theories/EulerLib.v
theories/GamLib.v
theories/GamMix.v
theories/GamMono.v
theories/GamSq.v
theories/GammaLib.v
theories/GammaLib2.v
theories/GammaLib3.v
theories/GammaLib4.v
theories/HgLib.v
theories/HypLib.v
theories/IncLib.v
theories/IntLib.v
theories/InvDer.v
theories/InvLib.v
theories/KumLib.v
theories/LLib.v
theories/LSMom.v
theories/LSMom2.v
theories/LambertLib.v
theories/LimLib.v
theories/LnSin.v
theories/LogMom.v
theories/LogisLib.v
theories/M_argus.v
theories/M_basic.v
theories/M_benini.v
theories/M_benktander1.v
theories/M_benktander2.v
theories/M_beta.v
theories/M_betabinomial.v
theories/M_betaprime.v
theories/M_binomial.v
theories/M_bisect.v
theories/M_bracket.v
theories/M_burr12.v
theories/M_cauchy.v
theories/M_chi.v
theories/M_chi2.v
theories/M_common.v
theories/M_cosine.v
theories/M_digammainv.v
theories/M_dirichlet.v
theories/M_disc.v
theories/M_exponweib.v
theories/M_f.v
theories/M_fisher.v
theories/M_fnch.v
theories/M_fnch_cache.v
theories/M_folded_normal.v
theories/M_fun.v
theories/M_fun2.v
theories/M_gamma.v
theories/M_gamma_gompertz.v
theories/M_gauss_kuzmin.v
theories/M_genexpon.v
theories/M_genextreme.v
theories/M_genpareto.v
theories/M_gompertz.v
theories/M_gumbel_max.v
theories/M_gumbel_min.v
theories/M_half_logistic.v
theories/M_hyp.v
theories/M_hypergeometric.v
theories/M_hypsecant.v
theories/M_invchi2.v
theories/M_invgamma.v
theories/M_invgauss.v
theories/M_kumaraswamy.v
theories/M_laplace.v
theories/M_levy.v
theories/M_loggamma.v
theories/M_logistic.v
theories/M_loglogistic.v
theories/M_lognormal.v
theories/M_logseries.v
theories/M_marcumq.v
theories/M_maxwell.v
theories/M_multivariate_hypergeometric.v
theories/M_nakagami.v
theories/M_nct.v
theories/M_ncx2.v
theories/M_negative_binomial.v
theories/M_negative_hypergeometric.v
theories/M_newton.v
theories/M_normal.v
theories/M_numinv.v
theories/M_odds_ratio.v
theories/M_pareto.v
theories/M_poisson.v
theories/M_power_mle.v
theories/M_power_normal.v
theories/M_prec.v
theories/M_prec_table.v
theories/M_rel_breitwigner.v
theories/M_rice.v
theories/M_seq.v
theories/M_sfun.v
theories/M_sfun2.v
theories/M_slash.v
theories/M_stats.v
theories/M_studentt.v
theories/M_trunc_discrete_exp.v
theories/M_truncnorm.v
theories/M_tukeylambda.v
theories/M_uniform.v
theories/M_vonmises.v
theories/M_weibull_common.v
theories/M_weibull_max.v
theories/M_weibull_min.v
theories/MomLib.v
theories/NoInt.v
theories/PLib.v
theories/P_argus.v
theories/P_basic.v
theories/P_basic2.v
theories/P_benini.v
theories/P_benktander1.v
theories/P_benktander2.v
theories/P_beta.v
theories/P_betabinomial.v
theories/P_betaprime.v
theories/P_binomial.v
theories/P_bisect.v
theories/P_bracket.v
theories/P_burr12.v
theories/P_cauchy.v
theories/P_chi.v
theories/P_chi2.v
theories/P_cosine.v
theories/P_digammainv.v
theories/P_dirichlet.v
theories/P_est.v
theories/P_exponweib.v
theories/P_f.v
theories/P_fisher.v
theories/P_fisher2.v
theories/P_fnch.v
theories/P_fnch_cache.v
theories/P_folded_normal.v
theories/P_fun.v
theories/P_fun2.v
theories/P_gamma.v
theories/P_gamma_gompertz.v
theories/P_gauss_kuzmin.v
theories/P_genexpon.v
theories/P_genextreme.v
theories/P_genpareto.v
theories/P_gompertz.v
theories/P_gumbel_max.v
theories/P_gumbel_min.v
theories/P_half_logistic.v
theories/P_hypergeometric.v
theories/P_hypsecant.v
theories/P_invchi2.v
theories/P_invgamma.v
theories/P_invgauss.v
theories/P_kumaraswamy.v
theories/P_laplace.v
theories/P_levy.v
theories/P_logb.v
theories/P_loggamma.v
theories/P_logistic.v
theories/P_loglogistic.v
theories/P_lognormal.v
theories/P_logseries.v
theories/P_marcumq.v
theories/P_maxwell.v
theories/P_multivariate_hypergeometric.v
theories/P_nakagami.v
theories/P_nct.v
theories/P_ncx2.v
theories/P_negative_binomial.v
theories/P_negative_hypergeometric.v
theories/P_newton.v
theories/P_normal.v
theories/P_odds_ratio.v
theories/P_odds_ratio2.v
theories/P_odds_ratio3.v
theories/P_pareto.v
theories/P_poisson.v
theories/P_power_mle.v
theories/P_power_normal.v
theories/P_prec.v
theories/P_rel_breitwigner.v
theories/P_rice.v
theories/P_seq.v
theories/P_sfun.v
theories/P_slash.v
theories/P_stats.v
theories/P_stats2.v
theories/P_studentt.v
theories/P_trunc_discrete_exp.v
theories/P_truncnorm.v
theories/P_tukeylambda.v
theories/P_uniform.v
theories/P_vonmises.v
theories/P_weibull_max.v
theories/P_weibull_min.v
theories/PatchLib.v
theories/PolyGam.v
theories/RLib.v
theories/ReflLib.v
theories/RootLib.v
theories/SFun.v
theories/SFun2.v
theories/SFun3.v
theories/SFun4.v
theories/SFunC.v
theories/Spec.v
theories/SpecBis.v
theories/SpecBracket.v
theories/SpecCache.v
theories/SpecDisc.v
theories/SpecEst.v
theories/SpecEuler.v
theories/SpecFun2.v
theories/SpecGrid.v
theories/SpecInt.v
theories/SpecInv.v
theories/SpecInv3.v
theories/SpecLS.v
theories/SpecMarcum.v
theories/SpecMulti.v
theories/SpecNewton.v
theories/SpecNoMom.v
theories/SpecOdds.v
theories/SpecPower.v
theories/SpecRoot.v
theories/SpecStat.v
theories/SpecTop.v
theories/StLib.v
theories/SubLib.v
theories/SymInt.v
theories/SymLib.v
theories/TTac.v
theories/T_argus.v
theories/T_basic.v
theories/T_benini.v
theories/T_benktander1.v
theories/T_benktander2.v
theories/T_beta.v
theories/T_betabinomial.v
theories/T_betaprime.v
theories/T_binomial.v
theories/T_bisect.v
theories/T_bracket.v
theories/T_burr12.v
theories/T_cauchy.v
theories/T_chi.v
theories/T_chi2.v
theories/T_cosine.v
theories/T_digammainv.v
theories/T_dirichlet.v
theories/T_exponweib.v
theories/T_f.v
theories/T_fisher.v
theories/T_fnch.v
theories/T_fnch_cache.v
theories/T_folded_normal.v
theories/T_fun.v
theories/T_fun2.v
theories/T_gamma.v
theories/T_gamma_gompertz.v
theories/T_gauss_kuzmin.v
theories/T_genexpon.v
theories/T_genextreme.v
theories/T_genpareto.v
theories/T_gompertz.v
theories/T_gumbel_max.v
theories/T_gumbel_min.v
theories/T_half_logistic.v
theories/T_hypergeometric.v
theories/T_hypsecant.v
theories/T_invchi2.v
theories/T_invgamma.v
theories/T_invgauss.v
theories/T_kumaraswamy.v
theories/T_laplace.v
theories/T_levy.v
theories/T_logb.v
theories/T_loggamma.v
theories/T_logistic.v
theories/T_loglogistic.v
theories/T_lognormal.v
theories/T_logseries.v
theories/T_marcumq.v
theories/T_maxwell.v
theories/T_multivariate_hypergeometric.v
theories/T_nakagami.v
theories/T_nct.v
theories/T_ncx2.v
theories/T_negative_binomial.v
theories/T_negative_hypergeometric.v
theories/T_normal.v
theories/T_odds_ratio.v
theories/T_pareto.v
theories/T_poisson.v
theories/T_power_mle.v
theories/T_power_normal.v
theories/T_prec.v
theories/T_rel_breitwigner.v
theories/T_rice.v
theories/T_seq.v
theories/T_slash.v
theories/T_stats.v
theories/T_studentt.v
theories/T_trunc_discrete_exp.v
theories/T_truncnorm.v
theories/T_tukeylambda.v
theories/T_uniform.v
theories/T_vonmises.v
theories/T_weibull_max.v
theories/T_weibull_min.v
theories/TiltLib.v
theories/TrigLib.v
theories/TruncLib.v
theories/VTac.v
theories/Values.v
theories/VarPos.v
theories/WeibLib.v
theories/XLib.v
