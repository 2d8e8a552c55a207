(** Generated by tools/mkprec.py from the text of /repo/mpsci (tests excluded): the precision
    skeleton of every function, method, nested function, lambda and module body.  See M_prec.v
    for the language.  Decorators and with-statements that change the precision appear as [With].  Each
    row carries the lines of the source it models. *)
From Coq Require Import List String ZArith.
From Verif Require Import M_prec.
Import ListNotations.
Local Open Scope string_scope.
Local Open Scope Z_scope.

Definition table0 : program := [
  (** mpsci/__init__.py:1-15 *)
  ("mpsci.<module>", Eval ["?"]);
  (** mpsci/distributions/__init__.py:1-29 *)
  ("mpsci.distributions.<module>", Skip);
  (** mpsci/distributions/_common.py:18-19 *)
  ("mpsci.distributions._common.isfixed", Seq (Eval []) (Return));
  (** mpsci/distributions/_common.py:22-27 *)
  ("mpsci.distributions._common._validate_loc_scale", Seq (Eval []) (Seq (Eval []) (Seq (Seq (Eval []) (If (Seq (Eval []) (Raise)) (Skip))) (Seq (Eval []) (Return)))));
  (** mpsci/distributions/_common.py:30-33 *)
  ("mpsci.distributions._common._validate_p", Seq (Seq (Eval []) (If (Seq (Eval []) (Raise)) (Skip))) (Seq (Eval []) (Return)));
  (** mpsci/distributions/_common.py:36-42 *)
  ("mpsci.distributions._common._validate_int", Seq (Seq (Eval []) (If (Seq (Eval []) (Raise)) (Skip))) (Seq (Eval []) (Return)));
  (** mpsci/distributions/_common.py:45-52 *)
  ("mpsci.distributions._common._validate_moment_n", Seq (Try (Eval []) (Seq (Eval []) (Raise)) (Skip)) (Seq (Seq (Eval []) (If (Seq (Eval []) (Raise)) (Skip))) (Seq (Eval []) (Return))));
  (** mpsci/distributions/_common.py:55-61 *)
  ("mpsci.distributions._common._seq_to_mp", Seq (Eval []) (Return));
  (** mpsci/distributions/_common.py:64-98 *)
  ("mpsci.distributions._common._validate_x_bounds", Seq (Seq (Eval []) (If (Seq (Seq (Eval []) (If (Eval []) (Eval []))) (Seq (Eval []) (If (Seq (Eval []) (Seq (Seq (Eval []) (If (Eval []) (Eval []))) (Seq (Eval []) (Raise)))) (Skip)))) (Skip))) (Seq (Seq (Eval []) (If (Seq (Seq (Eval []) (If (Eval []) (Eval []))) (Seq (Eval []) (If (Seq (Eval []) (Seq (Seq (Eval []) (If (Eval []) (Eval []))) (Seq (Eval []) (Raise)))) (Skip)))) (Skip))) (Seq (Eval ["mpsci.distributions._common._seq_to_mp"]) (Return))));
  (** mpsci/distributions/_common.py:101-112 *)
  ("mpsci.distributions._common._median", Seq (Eval []) (Seq (Eval []) (Seq (Eval []) (Seq (Seq (Eval []) (If (Eval []) (Eval []))) (Seq (Eval []) (Return))))));
  (** mpsci/distributions/_common.py:115-126 *)
  ("mpsci.distributions._common._validate_counts", Seq (Eval []) (Seq (Seq (Eval []) (If (Seq (Seq (Eval []) (If (Eval []) (Skip))) (Seq (Eval []) (Return))) (Skip))) (Seq (Seq (Eval []) (If (Seq (Eval []) (Raise)) (Skip))) (Seq (Seq (Eval []) (If (Seq (Eval []) (Raise)) (Skip))) (Seq (Eval []) (Return))))));
  (** mpsci/distributions/_common.py:129-196 *)
  ("mpsci.distributions._common._find_bracket", Seq (Eval []) (Seq (Eval []) (Seq (Eval []) (Seq (Eval ["?"]) (Seq (Seq (Eval []) (If (Seq (Eval []) (Return)) (Skip))) (Seq (Eval ["?"]) (Seq (Seq (Eval []) (If (Seq (Eval []) (Return)) (Skip))) (Seq (Eval []) (Seq (Seq (Eval []) (If (Seq (Eval []) (Seq (Eval []) (Seq (Seq (Eval ["?"]) (Loop (Seq (Seq (Eval []) (Eval [])) (Eval ["?"])))) (Seq (Eval ["?"]) (Loop (Seq (Eval []) (Eval ["?"]))))))) (Seq (Eval []) (If (Seq (Eval []) (Seq (Eval []) (Seq (Eval []) (Seq (Eval ["?"]) (Loop (Seq (Seq (Eval []) (Seq (Eval []) (Eval []))) (Eval ["?"]))))))) (Seq (Eval []) (If (Seq (Eval []) (Seq (Eval []) (Seq (Eval []) (Seq (Eval ["?"]) (Loop (Seq (Seq (Eval []) (Seq (Eval []) (Eval []))) (Eval ["?"]))))))) (Seq (Eval []) (Eval [])))))))) (Seq (Seq (Eval []) (If (Eval []) (Skip))) (Seq (Seq (Eval []) (Loop (Seq (Eval []) (Seq (Eval ["?"]) (Seq (Seq (Eval []) (If (Seq (Eval []) (Return)) (Skip))) (Seq (Eval []) (If (Eval []) (Eval [])))))))) (Seq (Eval []) (Return)))))))))))));
  (** mpsci/distributions/_common.py:215-215 *)
  ("mpsci.distributions._common._find_bracket_by_expansion_neginf_inf.<lambda>@215", Eval ["?"]);
  (** mpsci/distributions/_common.py:216-216 *)
  ("mpsci.distributions._common._find_bracket_by_expansion_neginf_inf.<lambda>@216", Eval ["?"]);
  (** mpsci/distributions/_common.py:218-218 *)
  ("mpsci.distributions._common._find_bracket_by_expansion_neginf_inf.<lambda>@218", Eval ["?"]);
  (** mpsci/distributions/_common.py:219-219 *)
  ("mpsci.distributions._common._find_bracket_by_expansion_neginf_inf.<lambda>@219", Eval ["?"]);
  (** mpsci/distributions/_common.py:199-233 *)
  ("mpsci.distributions._common._find_bracket_by_expansion_neginf_inf", Seq (Eval []) (Seq (Seq (Eval []) (If (Seq (Eval []) (Raise)) (Skip))) (Seq (Seq (Eval []) (If (Seq (Eval ["mpsci.distributions._common._find_bracket_by_expansion_neginf_inf.<lambda>@215"]) (Eval ["mpsci.distributions._common._find_bracket_by_expansion_neginf_inf.<lambda>@216"])) (Seq (Eval ["mpsci.distributions._common._find_bracket_by_expansion_neginf_inf.<lambda>@218"]) (Eval ["mpsci.distributions._common._find_bracket_by_expansion_neginf_inf.<lambda>@219"])))) (Seq (Eval []) (Seq (Seq (Eval ["mpsci.distributions._common._find_bracket_by_expansion_neginf_inf.<lambda>@218"]) (If (Seq (Eval []) (Seq (Eval ["mpsci.distributions._common._find_bracket_by_expansion_neginf_inf.<lambda>@218"]) (Loop (Seq (Eval []) (Eval ["mpsci.distributions._common._find_bracket_by_expansion_neginf_inf.<lambda>@218"]))))) (Skip))) (Seq (Eval []) (Seq (Seq (Eval ["mpsci.distributions._common._find_bracket_by_expansion_neginf_inf.<lambda>@219"]) (If (Seq (Eval []) (Seq (Eval ["mpsci.distributions._common._find_bracket_by_expansion_neginf_inf.<lambda>@219"]) (Loop (Seq (Eval []) (Eval ["mpsci.distributions._common._find_bracket_by_expansion_neginf_inf.<lambda>@219"]))))) (Skip))) (Seq (Eval []) (Return)))))))));
  (** mpsci/distributions/_common.py:248-248 *)
  ("mpsci.distributions._common._find_bracket_by_expansion_0_inf.<lambda>@248", Eval ["?"]);
  (** mpsci/distributions/_common.py:249-249 *)
  ("mpsci.distributions._common._find_bracket_by_expansion_0_inf.<lambda>@249", Eval ["?"]);
  (** mpsci/distributions/_common.py:251-251 *)
  ("mpsci.distributions._common._find_bracket_by_expansion_0_inf.<lambda>@251", Eval ["?"]);
  (** mpsci/distributions/_common.py:252-252 *)
  ("mpsci.distributions._common._find_bracket_by_expansion_0_inf.<lambda>@252", Eval ["?"]);
  (** mpsci/distributions/_common.py:236-261 *)
  ("mpsci.distributions._common._find_bracket_by_expansion_0_inf", Seq (Seq (Eval []) (If (Seq (Eval []) (Raise)) (Skip))) (Seq (Seq (Eval []) (If (Seq (Eval ["mpsci.distributions._common._find_bracket_by_expansion_0_inf.<lambda>@248"]) (Eval ["mpsci.distributions._common._find_bracket_by_expansion_0_inf.<lambda>@249"])) (Seq (Eval ["mpsci.distributions._common._find_bracket_by_expansion_0_inf.<lambda>@251"]) (Eval ["mpsci.distributions._common._find_bracket_by_expansion_0_inf.<lambda>@252"])))) (Seq (Eval []) (Seq (Seq (Eval ["mpsci.distributions._common._find_bracket_by_expansion_0_inf.<lambda>@251"]) (Loop (Seq (Eval []) (Eval ["mpsci.distributions._common._find_bracket_by_expansion_0_inf.<lambda>@251"])))) (Seq (Eval []) (Seq (Seq (Eval ["mpsci.distributions._common._find_bracket_by_expansion_0_inf.<lambda>@252"]) (Loop (Seq (Eval []) (Eval ["mpsci.distributions._common._find_bracket_by_expansion_0_inf.<lambda>@252"])))) (Seq (Eval []) (Return))))))));
  (** mpsci/distributions/_common.py:298-298 *)
  ("mpsci.distributions._common._generic_inv.<lambda>@298", Eval ["?"]);
  (** mpsci/distributions/_common.py:264-299 *)
  ("mpsci.distributions._common._generic_inv", With (WorkPrec (Mul (Num 2) Prec)) (Seq (Eval []) (Seq (Eval ["mpsci.distributions._common._find_bracket_by_expansion_0_inf"]) (Seq (Seq (Eval []) (If (Eval []) (Eval []))) (Seq (Eval ["?"; "mpsci.distributions._common._generic_inv.<lambda>@298"]) (Return))))));
  (** mpsci/distributions/_common.py:1-300 *)
  ("mpsci.distributions._common.<module>", Skip);
  (** mpsci/distributions/_weibull_common.py:8-16 *)
  ("mpsci.distributions._weibull_common._validate_params", Seq (Seq (Eval []) (If (Seq (Eval []) (Raise)) (Skip))) (Seq (Seq (Eval []) (If (Seq (Eval []) (Raise)) (Skip))) (Seq (Eval []) (Seq (Eval []) (Seq (Eval []) (Seq (Eval []) (Return)))))));
  (** mpsci/distributions/_weibull_common.py:19-27 *)
  ("mpsci.distributions._weibull_common._mle_k_eqn1", Seq (Eval []) (Seq (Eval []) (Seq (Eval []) (Seq (Eval []) (Seq (Eval []) (Seq (Eval []) (Return)))))));
  (** mpsci/distributions/_weibull_common.py:30-39 *)
  ("mpsci.distributions._weibull_common._mle_k_eqn2", Seq (Eval []) (Seq (Eval []) (Seq (Eval []) (Seq (Eval []) (Seq (Eval []) (Seq (Eval []) (Seq (Eval []) (Seq (Eval []) (Return)))))))));
  (** mpsci/distributions/_weibull_common.py:1-40 *)
  ("mpsci.distributions._weibull_common.<module>", Skip);
  (** mpsci/distributions/argus.py:20-25 *)
  ("mpsci.distributions.argus._validate_params", Seq (Seq (Eval []) (If (Seq (Eval []) (Raise)) (Skip))) (Seq (Seq (Eval []) (If (Seq (Eval []) (Raise)) (Skip))) (Seq (Eval []) (Return))));
  (** mpsci/distributions/argus.py:28-29 *)
  ("mpsci.distributions.argus._psi", Seq (Eval []) (Return));
  (** mpsci/distributions/argus.py:32-41 *)
  ("mpsci.distributions.argus.pdf", With (ExtraDps (Num 5)) (Seq (Eval ["mpsci.distributions.argus._validate_params"]) (Seq (Eval []) (Seq (Seq (Eval []) (If (Seq (Eval []) (Return)) (Skip))) (Seq (Eval ["mpsci.distributions.argus.logpdf"]) (Return))))));
  (** mpsci/distributions/argus.py:44-62 *)
  ("mpsci.distributions.argus.logpdf", With (ExtraDps (Num 5)) (Seq (Eval ["mpsci.distributions.argus._validate_params"]) (Seq (Eval []) (Seq (Seq (Eval []) (If (Seq (Eval []) (Return)) (Skip))) (Seq (Eval []) (Seq (Eval []) (If (Seq (Eval []) (Return)) (Seq (Eval ["mpsci.distributions.argus._psi"]) (Seq (Eval []) (Seq (Eval []) (Seq (Eval []) (Seq (Eval []) (Return)))))))))))));
  (** mpsci/distributions/argus.py:65-81 *)
  ("mpsci.distributions.argus.cdf", With (ExtraDps (Num 5)) (Seq (Eval ["mpsci.distributions.argus._validate_params"]) (Seq (Eval []) (Seq (Seq (Eval []) (If (Seq (Eval []) (Return)) (Skip))) (Seq (Seq (Eval []) (If (Seq (Eval []) (Return)) (Skip))) (Seq (Eval []) (Seq (Eval []) (If (Seq (Eval []) (Return)) (Seq (Eval ["mpsci.distributions.argus._psi"]) (Return))))))))));
  (** mpsci/distributions/argus.py:100-100 *)
  ("mpsci.distributions.argus.invcdf.<lambda>@100", Eval ["mpsci.distributions.argus.cdf"]);
  (** mpsci/distributions/argus.py:107-107 *)
  ("mpsci.distributions.argus.invcdf.<lambda>@107", Eval ["mpsci.distributions.argus.cdf"]);
  (** mpsci/distributions/argus.py:84-109 *)
  ("mpsci.distributions.argus.invcdf", With (ExtraDps (Num 5)) (Seq (Eval ["mpsci.distributions.argus._validate_params"]) (Seq (Eval ["mpsci.distributions._common._validate_p"]) (Seq (Eval ["mpsci.distributions._common._find_bracket"; "mpsci.distributions.argus.invcdf.<lambda>@100"]) (Seq (Seq (Eval []) (If (Eval []) (Eval []))) (Seq (With (WorkPrec (Mul (Num 2) Prec)) (Seq (Eval []) (Eval ["?"; "mpsci.distributions.argus.invcdf.<lambda>@107"]))) (Seq (Eval []) (Return))))))));
  (** mpsci/distributions/argus.py:112-127 *)
  ("mpsci.distributions.argus.sf", With (ExtraDps (Num 5)) (Seq (Eval ["mpsci.distributions.argus._validate_params"]) (Seq (Eval []) (Seq (Seq (Eval []) (If (Seq (Eval []) (Return)) (Skip))) (Seq (Seq (Eval []) (If (Seq (Eval []) (Return)) (Skip))) (Seq (Eval []) (Seq (Eval []) (If (Seq (Eval []) (Return)) (Seq (Eval ["mpsci.distributions.argus._psi"]) (Return))))))))));
  (** mpsci/distributions/argus.py:146-146 *)
  ("mpsci.distributions.argus.invsf.<lambda>@146", Eval ["mpsci.distributions.argus.sf"]);
  (** mpsci/distributions/argus.py:153-153 *)
  ("mpsci.distributions.argus.invsf.<lambda>@153", Eval ["mpsci.distributions.argus.sf"]);
  (** mpsci/distributions/argus.py:130-155 *)
  ("mpsci.distributions.argus.invsf", With (ExtraDps (Num 5)) (Seq (Eval ["mpsci.distributions.argus._validate_params"]) (Seq (Eval ["mpsci.distributions._common._validate_p"]) (Seq (Eval ["mpsci.distributions._common._find_bracket"; "mpsci.distributions.argus.invsf.<lambda>@146"]) (Seq (Seq (Eval []) (If (Eval []) (Eval []))) (Seq (With (WorkPrec (Mul (Num 2) Prec)) (Seq (Eval []) (Eval ["?"; "mpsci.distributions.argus.invsf.<lambda>@153"]))) (Seq (Eval []) (Return))))))));
  (** mpsci/distributions/argus.py:158-164 *)
  ("mpsci.distributions.argus.support", With (ExtraDps (Num 5)) (Seq (Eval ["mpsci.distributions.argus._validate_params"]) (Seq (Eval []) (Return))));
  (** mpsci/distributions/argus.py:167-180 *)
  ("mpsci.distributions.argus.mean", With (ExtraDps (Num 5)) (Seq (Eval ["mpsci.distributions.argus._validate_params"]) (Seq (Eval []) (If (Seq (Eval []) (Return)) (Seq (Eval []) (Seq (Eval []) (Seq (Eval []) (Seq (Eval []) (Seq (Eval ["mpsci.distributions.argus._psi"]) (Return))))))))));
  (** mpsci/distributions/argus.py:183-195 *)
  ("mpsci.distributions.argus.var", With (ExtraDps (Num 5)) (Seq (Eval ["mpsci.distributions.argus._validate_params"]) (Seq (Eval ["mpsci.distributions.argus.mean"]) (Seq (Eval []) (If (Seq (Eval []) (Return)) (Seq (Eval ["mpsci.distributions.argus._psi"]) (Seq (Eval []) (Return))))))));
  (** mpsci/distributions/argus.py:198-210 *)
  ("mpsci.distributions.argus.mode", With (ExtraDps (Num 5)) (Seq (Eval ["mpsci.distributions.argus._validate_params"]) (Seq (Eval []) (If (Seq (Eval []) (Return)) (Seq (Eval []) (Seq (Eval []) (Seq (Eval []) (Seq (Eval []) (Return)))))))));
  (** mpsci/distributions/argus.py:1-211 *)
  ("mpsci.distributions.argus.<module>", Eval []);
  (** mpsci/distributions/benini.py:80-84 *)
  ("mpsci.distributions.benini._validate_positive", Seq (Eval []) (Seq (Seq (Eval []) (If (Seq (Eval []) (Raise)) (Skip))) (Seq (Eval []) (Return))));
  (** mpsci/distributions/benini.py:87-91 *)
  ("mpsci.distributions.benini._validate_params", Seq (Eval ["mpsci.distributions.benini._validate_positive"]) (Seq (Eval ["mpsci.distributions.benini._validate_positive"]) (Seq (Eval ["mpsci.distributions.benini._validate_positive"]) (Seq (Eval []) (Return)))));
  (** mpsci/distributions/benini.py:94-96 *)
  ("mpsci.distributions.benini.support", Seq (Eval ["mpsci.distributions.benini._validate_params"]) (Seq (Eval []) (Return)));
  (** mpsci/distributions/benini.py:99-112 *)
  ("mpsci.distributions.benini.logpdf", With (ExtraDps (Num 5)) (Seq (Eval ["mpsci.distributions.benini._validate_params"]) (Seq (Eval []) (Seq (Seq (Eval []) (If (Seq (Eval []) (Return)) (Skip))) (Seq (Seq (Eval []) (If (Seq (Eval []) (Return)) (Skip))) (Seq (Eval []) (Seq (Eval []) (Seq (Eval []) (Return)))))))));
  (** mpsci/distributions/benini.py:115-120 *)
  ("mpsci.distributions.benini.pdf", With (ExtraDps (Num 5)) (Seq (Eval ["mpsci.distributions.benini.logpdf"]) (Return)));
  (** mpsci/distributions/benini.py:123-133 *)
  ("mpsci.distributions.benini.cdf", With (ExtraDps (Num 5)) (Seq (Eval ["mpsci.distributions.benini._validate_params"]) (Seq (Eval []) (Seq (Seq (Eval []) (If (Seq (Eval []) (Return)) (Skip))) (Seq (Eval []) (Seq (Eval []) (Return)))))));
  (** mpsci/distributions/benini.py:136-149 *)
  ("mpsci.distributions.benini.logcdf", With (ExtraDps (Num 5)) (Seq (Eval ["mpsci.distributions.benini._validate_params"]) (Seq (Eval []) (Seq (Seq (Eval []) (If (Seq (Eval []) (Return)) (Skip))) (Seq (Eval ["mpsci.distributions.benini.median"]) (Seq (Eval []) (If (Seq (Eval ["mpsci.distributions.benini.cdf"]) (Return)) (Seq (Eval ["mpsci.distributions.benini.sf"]) (Return)))))))));
  (** mpsci/distributions/benini.py:152-161 *)
  ("mpsci.distributions.benini.invcdf", With (ExtraDps (Num 5)) (Seq (Eval ["mpsci.distributions.benini._validate_params"]) (Seq (Eval ["mpsci.distributions._common._validate_p"]) (Seq (Eval []) (Seq (Eval []) (Seq (Eval []) (Return)))))));
  (** mpsci/distributions/benini.py:164-174 *)
  ("mpsci.distributions.benini.sf", With (ExtraDps (Num 5)) (Seq (Eval ["mpsci.distributions.benini._validate_params"]) (Seq (Eval []) (Seq (Seq (Eval []) (If (Seq (Eval []) (Return)) (Skip))) (Seq (Eval []) (Seq (Eval []) (Return)))))));
  (** mpsci/distributions/benini.py:177-191 *)
  ("mpsci.distributions.benini.logsf", With (ExtraDps (Num 5)) (Seq (Eval ["mpsci.distributions.benini._validate_params"]) (Seq (Eval []) (Seq (Seq (Eval []) (If (Seq (Eval []) (Return)) (Skip))) (Seq (Eval ["mpsci.distributions.benini.median"]) (Seq (Eval []) (If (Seq (Eval ["mpsci.distributions.benini.cdf"]) (Return)) (Seq (Eval []) (Seq (Eval []) (Return))))))))));
  (** mpsci/distributions/benini.py:194-203 *)
  ("mpsci.distributions.benini.invsf", With (ExtraDps (Num 5)) (Seq (Eval ["mpsci.distributions.benini._validate_params"]) (Seq (Eval ["mpsci.distributions._common._validate_p"]) (Seq (Eval []) (Seq (Eval []) (Seq (Eval []) (Return)))))));
  (** mpsci/distributions/benini.py:206-211 *)
  ("mpsci.distributions.benini.median", With (ExtraDps (Num 5)) (Seq (Eval ["mpsci.distributions.benini.invcdf"]) (Return)));
  (** mpsci/distributions/benini.py:214-225 *)
  ("mpsci.distributions.benini.mode", With (ExtraDps (Num 5)) (Seq (Eval ["mpsci.distributions.benini._validate_params"]) (Seq (Seq (Eval []) (If (Seq (Eval []) (Return)) (Skip))) (Seq (Eval []) (Return)))));
  (** mpsci/distributions/benini.py:228-231 *)
  ("mpsci.distributions.benini._h_neg1", Seq (Eval []) (Seq (Eval []) (Seq (Eval []) (Return))))
].
Definition table1 : program := [
  (** mpsci/distributions/benini.py:234-241 *)
  ("mpsci.distributions.benini.mean", With (ExtraDps (Num 5)) (Seq (Eval ["mpsci.distributions.benini._validate_params"]) (Seq (Eval []) (Seq (Eval ["mpsci.distributions.benini._h_neg1"]) (Return)))));
  (** mpsci/distributions/benini.py:244-253 *)
  ("mpsci.distributions.benini.var", With (ExtraDps (Num 5)) (Seq (Eval ["mpsci.distributions.benini._validate_params"]) (Seq (Eval ["mpsci.distributions.benini.mean"]) (Seq (Eval []) (Seq (Eval ["mpsci.distributions.benini._h_neg1"]) (Seq (Eval []) (Return)))))));
  (** mpsci/distributions/benini.py:256-266 *)
  ("mpsci.distributions.benini.noncentral_moment", With (ExtraDps (Num 5)) (Seq (Eval ["mpsci.distributions.benini._validate_params"]) (Seq (Eval []) (Seq (Eval []) (Seq (Eval []) (Seq (Eval []) (Seq (Eval []) (Return))))))));
  (** mpsci/distributions/benini.py:269-278 *)
  ("mpsci.distributions.benini.nll", With (ExtraDps (Num 5)) (Seq (Eval ["mpsci.distributions.benini._validate_params"]) (Seq (Eval ["mpsci.distributions._common._validate_x_bounds"]) (Seq (Eval ["mpsci.distributions.benini.logpdf"]) (Return)))));
  (** mpsci/distributions/benini.py:1-279 *)
  ("mpsci.distributions.benini.<module>", Seq (Eval []) (Seq (Eval []) (Seq (Eval []) (Seq (Eval []) (Seq (Eval []) (Eval []))))));
  (** mpsci/distributions/benktander1.py:15-22 *)
  ("mpsci.distributions.benktander1._validate_ab", Seq (Seq (Eval []) (If (Seq (Eval []) (Raise)) (Skip))) (Seq (Seq (Eval []) (If (Seq (Eval []) (Raise)) (Skip))) (Seq (Seq (Eval []) (If (Seq (Eval []) (Raise)) (Skip))) (Seq (Eval []) (Return)))));
  (** mpsci/distributions/benktander1.py:25-38 *)
  ("mpsci.distributions.benktander1.pdf", With (ExtraDps (Num 5)) (Seq (Eval ["mpsci.distributions.benktander1._validate_ab"]) (Seq (Eval []) (Seq (Seq (Eval []) (If (Seq (Eval []) (Return)) (Skip))) (Seq (Eval []) (Seq (Eval []) (Seq (Eval []) (Return))))))));
  (** mpsci/distributions/benktander1.py:41-54 *)
  ("mpsci.distributions.benktander1.logpdf", With (ExtraDps (Num 5)) (Seq (Eval ["mpsci.distributions.benktander1._validate_ab"]) (Seq (Eval []) (Seq (Seq (Eval []) (If (Seq (Eval []) (Return)) (Skip))) (Seq (Eval []) (Seq (Eval []) (Seq (Eval []) (Return))))))));
  (** mpsci/distributions/benktander1.py:57-69 *)
  ("mpsci.distributions.benktander1.cdf", With (ExtraDps (Num 5)) (Seq (Eval ["mpsci.distributions.benktander1._validate_ab"]) (Seq (Eval []) (Seq (Seq (Eval []) (If (Seq (Eval []) (Return)) (Skip))) (Seq (Eval []) (Seq (Eval []) (Return)))))));
  (** mpsci/distributions/benktander1.py:72-84 *)
  ("mpsci.distributions.benktander1.sf", With (ExtraDps (Num 5)) (Seq (Eval ["mpsci.distributions.benktander1._validate_ab"]) (Seq (Eval []) (Seq (Seq (Eval []) (If (Seq (Eval []) (Return)) (Skip))) (Seq (Eval []) (Seq (Eval []) (Return)))))));
  (** mpsci/distributions/benktander1.py:104-105 *)
  ("mpsci.distributions.benktander1.invcdf.<lambda>@104", Eval []);
  (** mpsci/distributions/benktander1.py:87-107 *)
  ("mpsci.distributions.benktander1.invcdf", With (ExtraDps (Num 5)) (Seq (Eval ["mpsci.distributions._common._validate_p"]) (Seq (Eval ["mpsci.distributions.benktander1._validate_ab"]) (Seq (Seq (Eval []) (If (Seq (Eval []) (Return)) (Skip))) (Seq (Seq (Eval []) (If (Seq (Eval []) (Return)) (Skip))) (Seq (Eval []) (Seq (Eval []) (Seq (Eval []) (Seq (Eval []) (Seq (Eval ["?"; "mpsci.distributions.benktander1.invcdf.<lambda>@104"]) (Seq (Eval []) (Return))))))))))));
  (** mpsci/distributions/benktander1.py:127-128 *)
  ("mpsci.distributions.benktander1.invsf.<lambda>@127", Eval []);
  (** mpsci/distributions/benktander1.py:110-130 *)
  ("mpsci.distributions.benktander1.invsf", With (ExtraDps (Num 5)) (Seq (Eval ["mpsci.distributions._common._validate_p"]) (Seq (Eval ["mpsci.distributions.benktander1._validate_ab"]) (Seq (Seq (Eval []) (If (Seq (Eval []) (Return)) (Skip))) (Seq (Seq (Eval []) (If (Seq (Eval []) (Return)) (Skip))) (Seq (Eval []) (Seq (Eval []) (Seq (Eval []) (Seq (Eval []) (Seq (Eval ["?"; "mpsci.distributions.benktander1.invsf.<lambda>@127"]) (Seq (Eval []) (Return))))))))))));
  (** mpsci/distributions/benktander1.py:133-138 *)
  ("mpsci.distributions.benktander1.support", Seq (Eval ["mpsci.distributions.benktander1._validate_ab"]) (Seq (Eval []) (Return)));
  (** mpsci/distributions/benktander1.py:141-149 *)
  ("mpsci.distributions.benktander1.mean", With (ExtraDps (Num 5)) (Seq (Eval ["mpsci.distributions.benktander1._validate_ab"]) (Seq (Eval []) (Return))));
  (** mpsci/distributions/benktander1.py:152-160 *)
  ("mpsci.distributions.benktander1.mode", With (ExtraDps (Num 5)) (Seq (Eval ["mpsci.distributions.benktander1._validate_ab"]) (Seq (Seq (Eval []) (If (Seq (Eval []) (Return)) (Skip))) (Seq (Eval []) (Return)))));
  (** mpsci/distributions/benktander1.py:163-174 *)
  ("mpsci.distributions.benktander1.var", With (ExtraDps (Num 5)) (Seq (Eval ["mpsci.distributions.benktander1._validate_ab"]) (Seq (Eval []) (Seq (Eval []) (Seq (Eval []) (Seq (Eval []) (Return)))))));
  (** mpsci/distributions/benktander1.py:177-187 *)
  ("mpsci.distributions.benktander1.nll", With (ExtraDps (Num 5)) (Seq (Eval ["mpsci.distributions._common._validate_x_bounds"]) (Seq (Eval ["mpsci.distributions.benktander1._validate_ab"]) (Seq (Eval ["mpsci.distributions.benktander1.logpdf"]) (Return)))));
  (** mpsci/distributions/benktander1.py:203-211 *)
  ("mpsci.distributions.benktander1.mle.<locals>.mle_eqns", Seq (Eval []) (Seq (Eval []) (Seq (Eval []) (Seq (Eval []) (Seq (Eval []) (Return))))));
  (** mpsci/distributions/benktander1.py:190-230 *)
  ("mpsci.distributions.benktander1.mle", With (ExtraDps (Num 5)) (Seq (Seq (Eval []) (If (Seq (Eval []) (Raise)) (Skip))) (Seq (Eval ["mpsci.distributions._common._validate_x_bounds"]) (Seq (Eval []) (Seq (Eval []) (Seq (Seq (Eval []) (If (Eval []) (Seq (Eval ["mpsci.stats._basic.mean"]) (Eval [])))) (Seq (Eval []) (Seq (Eval ["mpsci.distributions.benktander1._validate_ab"]) (Seq (Eval ["?"; "mpsci.distributions.benktander1.mle.<locals>.mle_eqns"]) (Seq (Seq (Eval []) (If (Seq (Eval []) (Raise)) (Skip))) (Seq (Seq (Eval []) (If (Seq (Eval []) (Raise)) (Skip))) (Seq (Seq (Eval []) (If (Seq (Eval []) (Raise)) (Skip))) (Seq (Eval []) (Return))))))))))))));
  (** mpsci/distributions/benktander1.py:1-231 *)
  ("mpsci.distributions.benktander1.<module>", Eval []);
  (** mpsci/distributions/benktander2.py:14-19 *)
  ("mpsci.distributions.benktander2._validate_ab", Seq (Seq (Eval []) (If (Seq (Eval []) (Raise)) (Skip))) (Seq (Seq (Eval []) (If (Seq (Eval []) (Raise)) (Skip))) (Seq (Eval []) (Return))));
  (** mpsci/distributions/benktander2.py:22-36 *)
  ("mpsci.distributions.benktander2.pdf", With (ExtraDps (Num 5)) (Seq (Eval ["mpsci.distributions.benktander2._validate_ab"]) (Seq (Eval []) (Seq (Seq (Eval []) (If (Seq (Eval []) (Return)) (Skip))) (Seq (Eval []) (Seq (Eval []) (Seq (Eval []) (Seq (Eval []) (Return)))))))));
  (** mpsci/distributions/benktander2.py:39-53 *)
  ("mpsci.distributions.benktander2.logpdf", With (ExtraDps (Num 5)) (Seq (Eval ["mpsci.distributions.benktander2._validate_ab"]) (Seq (Eval []) (Seq (Seq (Eval []) (If (Seq (Eval []) (Return)) (Skip))) (Seq (Eval []) (Seq (Eval []) (Seq (Eval []) (Seq (Eval []) (Return)))))))));
  (** mpsci/distributions/benktander2.py:56-68 *)
  ("mpsci.distributions.benktander2.cdf", With (ExtraDps (Num 5)) (Seq (Eval ["mpsci.distributions.benktander2._validate_ab"]) (Seq (Eval []) (Seq (Seq (Eval []) (If (Seq (Eval []) (Return)) (Skip))) (Seq (Eval []) (Seq (Eval []) (Return)))))));
  (** mpsci/distributions/benktander2.py:71-82 *)
  ("mpsci.distributions.benktander2.sf", With (ExtraDps (Num 5)) (Seq (Eval ["mpsci.distributions.benktander2._validate_ab"]) (Seq (Eval []) (Seq (Seq (Eval []) (If (Seq (Eval []) (Return)) (Skip))) (Seq (Eval []) (Return))))));
  (** mpsci/distributions/benktander2.py:85-100 *)
  ("mpsci.distributions.benktander2.invcdf", With (ExtraDps (Num 5)) (Seq (Eval ["mpsci.distributions._common._validate_p"]) (Seq (Eval ["mpsci.distributions.benktander2._validate_ab"]) (Seq (Eval []) (If (Seq (Eval []) (Return)) (Seq (Eval []) (Seq (Eval []) (Seq (Eval []) (Seq (Eval []) (Return))))))))));
  (** mpsci/distributions/benktander2.py:103-118 *)
  ("mpsci.distributions.benktander2.invsf", With (ExtraDps (Num 5)) (Seq (Eval ["mpsci.distributions._common._validate_p"]) (Seq (Eval ["mpsci.distributions.benktander2._validate_ab"]) (Seq (Eval []) (If (Seq (Eval []) (Return)) (Seq (Eval []) (Seq (Eval []) (Seq (Eval []) (Seq (Eval []) (Return))))))))));
  (** mpsci/distributions/benktander2.py:121-126 *)
  ("mpsci.distributions.benktander2.support", Seq (Eval ["mpsci.distributions.benktander2._validate_ab"]) (Seq (Eval []) (Return)));
  (** mpsci/distributions/benktander2.py:129-137 *)
  ("mpsci.distributions.benktander2.mean", With (ExtraDps (Num 5)) (Seq (Eval ["mpsci.distributions.benktander2._validate_ab"]) (Seq (Eval []) (Return))));
  (** mpsci/distributions/benktander2.py:140-146 *)
  ("mpsci.distributions.benktander2.mode", Seq (Eval []) (Return));
  (** mpsci/distributions/benktander2.py:149-158 *)
  ("mpsci.distributions.benktander2.var", With (ExtraDps (Num 5)) (Seq (Eval ["mpsci.distributions.benktander2._validate_ab"]) (Seq (Eval []) (Seq (Eval []) (Return)))));
  (** mpsci/distributions/benktander2.py:161-171 *)
  ("mpsci.distributions.benktander2.nll", With (ExtraDps (Num 5)) (Seq (Eval ["mpsci.distributions._common._validate_x_bounds"]) (Seq (Eval ["mpsci.distributions.benktander2._validate_ab"]) (Seq (Eval ["mpsci.distributions.benktander2.logpdf"]) (Return)))));
  (** mpsci/distributions/benktander2.py:1-172 *)
  ("mpsci.distributions.benktander2.<module>", Eval []);
  (** mpsci/distributions/beta.py:22-26 *)
  ("mpsci.distributions.beta._validate_a_b", Seq (Seq (Eval []) (If (Seq (Eval []) (Raise)) (Skip))) (Seq (Eval []) (Return)));
  (** mpsci/distributions/beta.py:29-43 *)
  ("mpsci.distributions.beta.pdf", With (ExtraDps (Num 5)) (Seq (Eval ["mpsci.distributions.beta._validate_a_b"]) (Seq (Eval []) (Seq (Seq (Eval []) (If (Seq (Eval []) (Return)) (Skip))) (Seq (Seq (Eval []) (If (Seq (Eval []) (Return)) (Skip))) (Seq (Seq (Eval []) (If (Seq (Eval []) (Return)) (Skip))) (Seq (Eval []) (Return))))))));
  (** mpsci/distributions/beta.py:46-56 *)
  ("mpsci.distributions.beta.logpdf", With (ExtraDps (Num 5)) (Seq (Eval ["mpsci.distributions.beta._validate_a_b"]) (Seq (Eval []) (Seq (Seq (Eval []) (If (Seq (Eval []) (Return)) (Skip))) (Seq (Eval ["mpsci.fun._xlogy.xlogy"; "mpsci.fun._xlogy.xlog1py"; "mpsci.fun._logbeta.logbeta"]) (Return))))));
  (** mpsci/distributions/beta.py:59-69 *)
  ("mpsci.distributions.beta.cdf", With (ExtraDps (Num 5)) (Seq (Eval ["mpsci.distributions.beta._validate_a_b"]) (Seq (Seq (Eval []) (If (Seq (Eval []) (Return)) (Skip))) (Seq (Seq (Eval []) (If (Seq (Eval []) (Return)) (Skip))) (Seq (Eval []) (Return))))));
  (** mpsci/distributions/beta.py:72-82 *)
  ("mpsci.distributions.beta.sf", With (ExtraDps (Num 5)) (Seq (Eval ["mpsci.distributions.beta._validate_a_b"]) (Seq (Seq (Eval []) (If (Seq (Eval []) (Return)) (Skip))) (Seq (Seq (Eval []) (If (Seq (Eval []) (Return)) (Skip))) (Seq (Eval []) (Return))))));
  (** mpsci/distributions/beta.py:85-104 *)
  ("mpsci.distributions.beta.interval_prob", With (ExtraDps (Num 5)) (Seq (Eval ["mpsci.distributions.beta._validate_a_b"]) (Seq (Eval []) (Seq (Eval []) (Seq (Seq (Eval []) (If (Seq (Eval []) (Raise)) (Skip))) (Seq (Eval []) (Return)))))));
  (** mpsci/distributions/beta.py:115-115 *)
  ("mpsci.distributions.beta.invcdf.<lambda>@115", Eval ["mpsci.distributions.beta.cdf"]);
  (** mpsci/distributions/beta.py:107-119 *)
  ("mpsci.distributions.beta.invcdf", With (ExtraDps (Num 5)) (Seq (Eval ["mpsci.distributions.beta._validate_a_b"]) (Seq (Eval ["mpsci.distributions._common._validate_p"]) (Seq (Eval ["mpsci.distributions._common._find_bracket"; "mpsci.distributions.beta.invcdf.<lambda>@115"]) (Seq (Seq (Eval []) (If (Seq (Eval []) (Return)) (Skip))) (Seq (Eval ["mpsci.fun._inv_reg_inc_beta.betaincinv"]) (Return)))))));
  (** mpsci/distributions/beta.py:130-130 *)
  ("mpsci.distributions.beta.invsf.<lambda>@130", Eval ["mpsci.distributions.beta.sf"]);
  (** mpsci/distributions/beta.py:122-135 *)
  ("mpsci.distributions.beta.invsf", With (ExtraDps (Num 5)) (Seq (Eval ["mpsci.distributions.beta._validate_a_b"]) (Seq (Eval ["mpsci.distributions._common._validate_p"]) (Seq (Eval ["mpsci.distributions._common._find_bracket"; "mpsci.distributions.beta.invsf.<lambda>@130"]) (Seq (Seq (Eval []) (If (Seq (Eval []) (Return)) (Skip))) (Seq (Eval ["mpsci.fun._inv_reg_inc_beta.betaincinv"]) (Return)))))));
  (** mpsci/distributions/beta.py:138-144 *)
  ("mpsci.distributions.beta.support", With (ExtraDps (Num 5)) (Seq (Eval ["mpsci.distributions.beta._validate_a_b"]) (Seq (Eval []) (Return))));
  (** mpsci/distributions/beta.py:147-153 *)
  ("mpsci.distributions.beta.mean", With (ExtraDps (Num 5)) (Seq (Eval ["mpsci.distributions.beta._validate_a_b"]) (Seq (Eval []) (Return))));
  (** mpsci/distributions/beta.py:156-176 *)
  ("mpsci.distributions.beta.mode", With (ExtraDps (Num 5)) (Seq (Eval ["mpsci.distributions.beta._validate_a_b"]) (Seq (Seq (Eval []) (If (Seq (Eval []) (Return)) (Skip))) (Seq (Seq (Eval []) (If (Seq (Seq (Eval []) (If (Seq (Eval []) (Return)) (Skip))) (Seq (Eval []) (Return))) (Skip))) (Seq (Seq (Eval []) (If (Seq (Eval []) (Return)) (Skip))) (Seq (Eval []) (Return)))))));
  (** mpsci/distributions/beta.py:179-186 *)
  ("mpsci.distributions.beta.var", With (ExtraDps (Num 5)) (Seq (Eval ["mpsci.distributions.beta._validate_a_b"]) (Seq (Eval []) (Seq (Eval []) (Return)))));
  (** mpsci/distributions/beta.py:189-196 *)
  ("mpsci.distributions.beta.skewness", With (ExtraDps (Num 5)) (Seq (Eval ["mpsci.distributions.beta._validate_a_b"]) (Seq (Eval []) (Seq (Eval []) (Return)))));
  (** mpsci/distributions/beta.py:199-207 *)
  ("mpsci.distributions.beta.kurtosis", With (ExtraDps (Num 5)) (Seq (Eval ["mpsci.distributions.beta._validate_a_b"]) (Seq (Eval []) (Seq (Eval []) (Return)))));
  (** mpsci/distributions/beta.py:210-222 *)
  ("mpsci.distributions.beta.noncentral_moment", With (ExtraDps (Num 5)) (Seq (Eval ["mpsci.distributions._common._validate_moment_n"]) (Seq (Eval ["mpsci.distributions.beta._validate_a_b"]) (Seq (Eval []) (Seq (Seq (Eval []) (Loop (Eval []))) (Seq (Eval []) (Return)))))));
  (** mpsci/distributions/beta.py:225-234 *)
  ("mpsci.distributions.beta.entropy", With (ExtraDps (Num 5)) (Seq (Eval ["mpsci.distributions.beta._validate_a_b"]) (Seq (Eval ["mpsci.fun._logbeta.logbeta"]) (Return))));
  (** mpsci/distributions/beta.py:237-244 *)
  ("mpsci.distributions.beta.nll", With (ExtraDps (Num 5)) (Seq (Eval ["mpsci.distributions.beta._validate_a_b"]) (Seq (Eval ["mpsci.distributions._common._validate_x_bounds"]) (Seq (Eval ["mpsci.distributions.beta.logpdf"]) (Return)))));
  (** mpsci/distributions/beta.py:247-249 *)
  ("mpsci.distributions.beta._beta_mle_func", Seq (Eval []) (Seq (Eval []) (Return)));
  (** mpsci/distributions/beta.py:288-288 *)
  ("mpsci.distributions.beta.mle.<lambda>@288", Eval ["mpsci.distributions.beta._beta_mle_func"]);
  (** mpsci/distributions/beta.py:289-289 *)
  ("mpsci.distributions.beta.mle.<lambda>@289", Eval ["mpsci.distributions.beta._beta_mle_func"]);
  (** mpsci/distributions/beta.py:310-310 *)
  ("mpsci.distributions.beta.mle.<lambda>@310", Eval ["mpsci.distributions.beta._beta_mle_func"]);
  (** mpsci/distributions/beta.py:252-314 *)
  ("mpsci.distributions.beta.mle", With (ExtraDps (Num 5)) (Seq (Eval ["mpsci.distributions._common._validate_x_bounds"]) (Seq (Eval []) (Seq (Eval ["mpsci.stats._basic.mean"]) (Seq (Eval ["mpsci.distributions._common.isfixed"]) (Seq (Seq (Eval []) (If (Seq (Eval []) (If (Seq (Eval []) (Raise)) (Eval []))) (Skip))) (Seq (Eval ["mpsci.distributions._common.isfixed"]) (Seq (Seq (Eval []) (If (Seq (Eval []) (If (Seq (Eval []) (Raise)) (Eval []))) (Skip))) (Seq (Seq (Eval []) (If (Seq (Eval []) (Seq (Eval []) (Seq (Eval ["mpsci.stats._basic.var"]) (Seq (Seq (Eval []) (If (Eval []) (Eval []))) (Seq (Seq (Eval []) (If (Eval []) (Eval []))) (Seq (Eval ["?"; "mpsci.distributions.beta.mle.<lambda>@288"; "mpsci.distributions.beta.mle.<lambda>@289"]) (Seq (Eval []) (Return)))))))) (Skip))) (Seq (Seq (Eval []) (If (Seq (Eval []) (Return)) (Skip))) (Seq (Eval []) (Seq (Seq (Eval []) (If (Seq (Eval []) (Seq (Eval []) (Seq (Eval []) (Eval [])))) (Skip))) (Seq (Eval []) (Seq (Seq (Eval []) (If (Eval []) (Eval []))) (Seq (Eval ["?"; "mpsci.distributions.beta.mle.<lambda>@310"]) (Seq (Eval []) (If (Seq (Eval []) (Return)) (Seq (Eval []) (Return)))))))))))))))))));
  (** mpsci/distributions/beta.py:317-333 *)
  ("mpsci.distributions.beta.mom", With (ExtraDps (Num 5)) (Seq (Eval ["mpsci.distributions._common._validate_x_bounds"]) (Seq (Eval ["mpsci.stats._basic.mean"]) (Seq (Eval ["mpsci.stats._basic.mean"]) (Seq (Eval []) (Seq (Eval []) (Seq (Eval []) (Seq (Eval []) (Return)))))))))
].
Definition table2 : program := [
  (** mpsci/distributions/beta.py:341-344 *)
  ("mpsci.distributions.beta._nll_cens", Seq (Eval ["mpsci.distributions.beta.interval_prob"]) (Seq (Eval []) (Return)));
  (** mpsci/distributions/beta.py:348-348 *)
  ("mpsci.distributions.beta._nll_cens_da.<lambda>@348", Eval ["mpsci.distributions.beta._nll_cens"]);
  (** mpsci/distributions/beta.py:347-348 *)
  ("mpsci.distributions.beta._nll_cens_da", Seq (Eval ["?"; "mpsci.distributions.beta._nll_cens_da.<lambda>@348"]) (Return));
  (** mpsci/distributions/beta.py:352-352 *)
  ("mpsci.distributions.beta._nll_cens_db.<lambda>@352", Eval ["mpsci.distributions.beta._nll_cens"]);
  (** mpsci/distributions/beta.py:351-352 *)
  ("mpsci.distributions.beta._nll_cens_db", Seq (Eval ["?"; "mpsci.distributions.beta._nll_cens_db.<lambda>@352"]) (Return));
  (** mpsci/distributions/beta.py:356-356 *)
  ("mpsci.distributions.beta._nll_cens_d2a.<lambda>@356", Eval ["mpsci.distributions.beta._nll_cens"]);
  (** mpsci/distributions/beta.py:355-356 *)
  ("mpsci.distributions.beta._nll_cens_d2a", Seq (Eval ["?"; "mpsci.distributions.beta._nll_cens_d2a.<lambda>@356"]) (Return));
  (** mpsci/distributions/beta.py:360-360 *)
  ("mpsci.distributions.beta._nll_cens_d2b.<lambda>@360", Eval ["mpsci.distributions.beta._nll_cens"]);
  (** mpsci/distributions/beta.py:359-360 *)
  ("mpsci.distributions.beta._nll_cens_d2b", Seq (Eval ["?"; "mpsci.distributions.beta._nll_cens_d2b.<lambda>@360"]) (Return));
  (** mpsci/distributions/beta.py:364-364 *)
  ("mpsci.distributions.beta._nll_cens_dadb.<lambda>@364", Eval ["mpsci.distributions.beta._nll_cens_da"]);
  (** mpsci/distributions/beta.py:363-364 *)
  ("mpsci.distributions.beta._nll_cens_dadb", Seq (Eval ["?"; "mpsci.distributions.beta._nll_cens_dadb.<lambda>@364"]) (Return));
  (** mpsci/distributions/beta.py:421-421 *)
  ("mpsci.distributions.beta._mle_cens.<lambda>@421", Eval ["mpsci.distributions.beta._nll_cens_da"]);
  (** mpsci/distributions/beta.py:422-422 *)
  ("mpsci.distributions.beta._mle_cens.<lambda>@422", Eval ["mpsci.distributions.beta._nll_cens_db"]);
  (** mpsci/distributions/beta.py:367-435 *)
  ("mpsci.distributions.beta._mle_cens", With (ExtraDps (Num 5)) (Seq (Seq (Eval []) (If (Seq (Eval []) (Eval ["mpsci.distributions.beta.mle"])) (Skip))) (Seq (Eval ["?"; "mpsci.distributions.beta._mle_cens.<lambda>@421"; "mpsci.distributions.beta._mle_cens.<lambda>@422"]) (Seq (Eval []) (Seq (Eval ["mpsci.distributions.beta._nll_cens_d2a"]) (Seq (Eval ["mpsci.distributions.beta._nll_cens_d2b"]) (Seq (Eval ["mpsci.distributions.beta._nll_cens_dadb"]) (Seq (Eval []) (Seq (Eval []) (Seq (Eval []) (Seq (Eval []) (Seq (Eval []) (Return)))))))))))));
  (** mpsci/distributions/beta.py:1-436 *)
  ("mpsci.distributions.beta.<module>", Eval []);
  (** mpsci/distributions/betabinomial.py:19-28 *)
  ("mpsci.distributions.betabinomial._validate_params", Seq (Seq (Eval []) (If (Seq (Eval []) (Raise)) (Skip))) (Seq (Seq (Eval []) (If (Seq (Eval []) (Raise)) (Skip))) (Seq (Seq (Eval []) (If (Seq (Eval []) (Raise)) (Skip))) (Seq (Seq (Eval []) (If (Seq (Eval []) (Raise)) (Skip))) (Seq (Eval []) (Return))))));
  (** mpsci/distributions/betabinomial.py:31-48 *)
  ("mpsci.distributions.betabinomial.support", Seq (Eval ["mpsci.distributions.betabinomial._validate_params"]) (Seq (Eval []) (Return)));
  (** mpsci/distributions/betabinomial.py:51-64 *)
  ("mpsci.distributions.betabinomial.logpmf", With (ExtraDps (Num 5)) (Seq (Eval ["mpsci.distributions.betabinomial._validate_params"]) (Seq (Seq (Eval []) (If (Seq (Eval []) (Return)) (Skip))) (Seq (Seq (Eval []) (If (Seq (Eval []) (Return)) (Skip))) (Seq (Eval ["mpsci.fun._logbinomial.logbinomial"]) (Seq (Eval ["mpsci.fun._logbeta.logbeta"]) (Seq (Eval ["mpsci.fun._logbeta.logbeta"]) (Seq (Eval []) (Return)))))))));
  (** mpsci/distributions/betabinomial.py:67-77 *)
  ("mpsci.distributions.betabinomial.pmf", With (ExtraDps (Num 5)) (Seq (Eval ["mpsci.distributions.betabinomial._validate_params"]) (Seq (Seq (Eval []) (If (Seq (Eval []) (Return)) (Skip))) (Seq (Seq (Eval []) (If (Seq (Eval []) (Return)) (Skip))) (Seq (Eval ["mpsci.distributions.betabinomial.logpmf"]) (Return))))));
  (** mpsci/distributions/betabinomial.py:80-100 *)
  ("mpsci.distributions.betabinomial.cdf", With (ExtraDps (Num 5)) (Seq (Eval ["mpsci.distributions.betabinomial._validate_params"]) (Seq (Seq (Eval []) (If (Seq (Eval []) (Return)) (Skip))) (Seq (Seq (Eval []) (If (Seq (Eval []) (Return)) (Skip))) (Seq (Eval []) (Seq (Eval []) (Seq (Eval []) (Seq (Eval []) (Return)))))))));
  (** mpsci/distributions/betabinomial.py:103-121 *)
  ("mpsci.distributions.betabinomial.sf", With (ExtraDps (Num 5)) (Seq (Eval ["mpsci.distributions.betabinomial._validate_params"]) (Seq (Seq (Eval []) (If (Seq (Eval []) (Return)) (Skip))) (Seq (Seq (Eval []) (If (Seq (Eval []) (Return)) (Skip))) (Seq (Eval []) (Seq (Eval []) (Seq (Eval []) (Seq (Eval []) (Return)))))))));
  (** mpsci/distributions/betabinomial.py:124-130 *)
  ("mpsci.distributions.betabinomial.mean", With (ExtraDps (Num 5)) (Seq (Eval ["mpsci.distributions.betabinomial._validate_params"]) (Seq (Eval []) (Return))));
  (** mpsci/distributions/betabinomial.py:133-146 *)
  ("mpsci.distributions.betabinomial.mode", With (ExtraDps (Num 5)) (Seq (Eval ["mpsci.distributions.betabinomial._validate_params"]) (Seq (Seq (Eval []) (If (Seq (Eval []) (Return)) (Skip))) (Seq (Seq (Eval []) (If (Seq (Eval []) (Return)) (Skip))) (Seq (Eval []) (Return))))));
  (** mpsci/distributions/betabinomial.py:149-156 *)
  ("mpsci.distributions.betabinomial.var", With (ExtraDps (Num 5)) (Seq (Eval ["mpsci.distributions.betabinomial._validate_params"]) (Seq (Eval []) (Seq (Eval []) (Return)))));
  (** mpsci/distributions/betabinomial.py:159-168 *)
  ("mpsci.distributions.betabinomial.skewness", With (ExtraDps (Num 5)) (Seq (Eval ["mpsci.distributions.betabinomial._validate_params"]) (Seq (Eval []) (Seq (Eval []) (Seq (Eval []) (Seq (Eval []) (Return)))))));
  (** mpsci/distributions/betabinomial.py:171-185 *)
  ("mpsci.distributions.betabinomial.kurtosis", With (ExtraDps (Num 5)) (Seq (Eval ["mpsci.distributions.betabinomial._validate_params"]) (Seq (Eval []) (Seq (Eval []) (Seq (Eval []) (Seq (Eval []) (Return)))))));
  (** mpsci/distributions/betabinomial.py:188-203 *)
  ("mpsci.distributions.betabinomial.nll", With (ExtraDps (Num 5)) (Seq (Eval ["mpsci.distributions.betabinomial._validate_params"]) (Seq (Eval ["mpsci.distributions._common._validate_x_bounds"]) (Seq (Seq (Eval []) (If (Seq (Eval []) (Raise)) (Skip))) (Seq (Eval ["mpsci.distributions._common._validate_counts"]) (Seq (Eval ["mpsci.distributions.betabinomial.logpmf"]) (Return)))))));
  (** mpsci/distributions/betabinomial.py:306-318 *)
  ("mpsci.distributions.betabinomial.mle.<locals>.first_order_eqns", Seq (Eval []) (Seq (Eval []) (Seq (Eval []) (Seq (Eval []) (Seq (Eval []) (Seq (Eval []) (Seq (Eval []) (Seq (Eval []) (Seq (Eval []) (Seq (Eval []) (Return)))))))))));
  (** mpsci/distributions/betabinomial.py:327-330 *)
  ("mpsci.distributions.betabinomial.mle.<locals>.first_order_eqn", Seq (Eval []) (Seq (Eval []) (Return)));
  (** mpsci/distributions/betabinomial.py:338-341 *)
  ("mpsci.distributions.betabinomial.mle.<locals>.first_order_eqn", Seq (Eval []) (Seq (Eval []) (Return)));
  (** mpsci/distributions/betabinomial.py:206-348 *)
  ("mpsci.distributions.betabinomial.mle", With (ExtraDps (Num 5)) (Seq (Seq (Eval []) (If (Seq (Eval []) (Raise)) (Skip))) (Seq (Seq (Eval []) (If (Seq (Eval []) (Raise)) (Skip))) (Seq (Eval ["mpsci.distributions._common._validate_x_bounds"]) (Seq (Seq (Eval []) (If (Seq (Eval []) (Raise)) (Skip))) (Seq (Eval ["mpsci.distributions._common._validate_counts"]) (Seq (Seq (Eval []) (If (Eval []) (Skip))) (Seq (Seq (Eval []) (If (Eval []) (Skip))) (Seq (Seq (Eval []) (If (Seq (Eval []) (If (Eval ["mpsci.distributions.betabinomial._validate_params"]) (Eval ["mpsci.distributions.betabinomial._validate_params"]))) (Seq (Eval []) (If (Eval ["mpsci.distributions.betabinomial._validate_params"]) (Eval ["mpsci.distributions.betabinomial._validate_params"]))))) (Seq (Eval []) (If (Seq (Eval ["?"; "mpsci.distributions.betabinomial.mle.<locals>.first_order_eqns"]) (Seq (Eval []) (Return))) (Seq (Eval []) (If (Seq (Eval ["?"; "mpsci.distributions.betabinomial.mle.<locals>.first_order_eqn"]) (Seq (Eval []) (Return))) (Seq (Eval []) (If (Seq (Eval ["?"; "mpsci.distributions.betabinomial.mle.<locals>.first_order_eqn"]) (Seq (Eval []) (Return))) (Seq (Eval []) (Return)))))))))))))))));
  (** mpsci/distributions/betabinomial.py:1-349 *)
  ("mpsci.distributions.betabinomial.<module>", Eval []);
  (** mpsci/distributions/betaprime.py:67-76 *)
  ("mpsci.distributions.betaprime._validate_params", Seq (Seq (Eval []) (If (Seq (Eval []) (Raise)) (Skip))) (Seq (Seq (Eval []) (If (Seq (Eval []) (Raise)) (Skip))) (Seq (Eval []) (Seq (Eval []) (Seq (Eval []) (Seq (Eval []) (Return)))))));
  (** mpsci/distributions/betaprime.py:79-92 *)
  ("mpsci.distributions.betaprime.pdf", With (ExtraDps (Num 5)) (Seq (Eval ["mpsci.distributions.betaprime._validate_params"]) (Seq (Eval []) (Seq (Seq (Eval []) (If (Seq (Eval []) (Return)) (Skip))) (Seq (Seq (Eval []) (If (Seq (Eval []) (Return)) (Skip))) (Seq (Eval []) (Seq (Eval []) (Return))))))));
  (** mpsci/distributions/betaprime.py:95-108 *)
  ("mpsci.distributions.betaprime.logpdf", With (ExtraDps (Num 5)) (Seq (Eval ["mpsci.distributions.betaprime._validate_params"]) (Seq (Eval []) (Seq (Seq (Eval []) (If (Seq (Eval []) (Return)) (Skip))) (Seq (Seq (Eval []) (If (Seq (Eval []) (Return)) (Skip))) (Seq (Eval []) (Seq (Eval ["mpsci.fun._xlogy.xlogy"; "mpsci.fun._xlogy.xlog1py"; "mpsci.fun._logbeta.logbeta"]) (Return))))))));
  (** mpsci/distributions/betaprime.py:111-127 *)
  ("mpsci.distributions.betaprime.cdf", With (ExtraDps (Num 5)) (Seq (Eval ["mpsci.distributions.betaprime._validate_params"]) (Seq (Eval []) (Seq (Seq (Eval []) (If (Seq (Eval []) (Return)) (Skip))) (Seq (Seq (Eval []) (If (Seq (Eval []) (Return)) (Skip))) (Seq (Eval []) (Seq (Seq (Eval []) (If (Eval []) (Eval []))) (Seq (Eval []) (Return)))))))));
  (** mpsci/distributions/betaprime.py:130-146 *)
  ("mpsci.distributions.betaprime.sf", With (ExtraDps (Num 5)) (Seq (Eval ["mpsci.distributions.betaprime._validate_params"]) (Seq (Eval []) (Seq (Seq (Eval []) (If (Seq (Eval []) (Return)) (Skip))) (Seq (Seq (Eval []) (If (Seq (Eval []) (Return)) (Skip))) (Seq (Eval []) (Seq (Seq (Eval []) (If (Eval []) (Eval []))) (Seq (Eval []) (Return)))))))));
  (** mpsci/distributions/betaprime.py:161-161 *)
  ("mpsci.distributions.betaprime.invcdf.<lambda>@161", Eval ["mpsci.distributions.betaprime.cdf"]);
  (** mpsci/distributions/betaprime.py:164-164 *)
  ("mpsci.distributions.betaprime.invcdf.<lambda>@164", Eval ["mpsci.distributions.betaprime.cdf"]);
  (** mpsci/distributions/betaprime.py:149-166 *)
  ("mpsci.distributions.betaprime.invcdf", With (ExtraDps (Num 5)) (Seq (Eval ["mpsci.distributions.betaprime._validate_params"]) (Seq (Eval ["mpsci.distributions._common._validate_p"]) (Seq (Seq (Eval []) (If (Seq (Eval []) (Return)) (Skip))) (Seq (Seq (Eval []) (If (Seq (Eval []) (Return)) (Skip))) (Seq (Eval ["mpsci.distributions._common._find_bracket"; "mpsci.distributions.betaprime.invcdf.<lambda>@161"]) (Seq (Seq (Eval []) (If (Seq (Eval []) (Return)) (Skip))) (Seq (Eval ["?"; "mpsci.distributions.betaprime.invcdf.<lambda>@164"]) (Seq (Eval []) (Return))))))))));
  (** mpsci/distributions/betaprime.py:181-181 *)
  ("mpsci.distributions.betaprime.invsf.<lambda>@181", Eval ["mpsci.distributions.betaprime.sf"]);
  (** mpsci/distributions/betaprime.py:184-184 *)
  ("mpsci.distributions.betaprime.invsf.<lambda>@184", Eval ["mpsci.distributions.betaprime.sf"]);
  (** mpsci/distributions/betaprime.py:169-186 *)
  ("mpsci.distributions.betaprime.invsf", With (ExtraDps (Num 5)) (Seq (Eval ["mpsci.distributions.betaprime._validate_params"]) (Seq (Eval ["mpsci.distributions._common._validate_p"]) (Seq (Seq (Eval []) (If (Seq (Eval []) (Return)) (Skip))) (Seq (Seq (Eval []) (If (Seq (Eval []) (Return)) (Skip))) (Seq (Eval ["mpsci.distributions._common._find_bracket"; "mpsci.distributions.betaprime.invsf.<lambda>@181"]) (Seq (Seq (Eval []) (If (Seq (Eval []) (Return)) (Skip))) (Seq (Eval ["?"; "mpsci.distributions.betaprime.invsf.<lambda>@184"]) (Seq (Eval []) (Return))))))))));
  (** mpsci/distributions/betaprime.py:189-194 *)
  ("mpsci.distributions.betaprime.support", Seq (Eval ["mpsci.distributions.betaprime._validate_params"]) (Seq (Eval []) (Return)));
  (** mpsci/distributions/betaprime.py:197-205 *)
  ("mpsci.distributions.betaprime.mean", With (ExtraDps (Num 5)) (Seq (Eval ["mpsci.distributions.betaprime._validate_params"]) (Seq (Seq (Eval []) (If (Seq (Eval []) (Return)) (Skip))) (Seq (Eval []) (Return)))));
  (** mpsci/distributions/betaprime.py:208-216 *)
  ("mpsci.distributions.betaprime.mode", With (ExtraDps (Num 5)) (Seq (Eval ["mpsci.distributions.betaprime._validate_params"]) (Seq (Seq (Eval []) (If (Seq (Eval []) (Return)) (Skip))) (Seq (Eval []) (Return)))));
  (** mpsci/distributions/betaprime.py:219-227 *)
  ("mpsci.distributions.betaprime.var", With (ExtraDps (Num 5)) (Seq (Eval ["mpsci.distributions.betaprime._validate_params"]) (Seq (Seq (Eval []) (If (Seq (Eval []) (Return)) (Skip))) (Seq (Eval []) (Return)))));
  (** mpsci/distributions/betaprime.py:230-240 *)
  ("mpsci.distributions.betaprime.skewness", With (ExtraDps (Num 5)) (Seq (Eval ["mpsci.distributions.betaprime._validate_params"]) (Seq (Seq (Eval []) (If (Seq (Eval []) (Return)) (Skip))) (Seq (Eval []) (Seq (Eval []) (Seq (Eval []) (Return)))))));
  (** mpsci/distributions/betaprime.py:243-259 *)
  ("mpsci.distributions.betaprime.kurtosis", With (ExtraDps (Num 5)) (Seq (Eval ["mpsci.distributions.betaprime._validate_params"]) (Seq (Seq (Eval []) (If (Seq (Eval []) (Return)) (Skip))) (Seq (Eval ["mpsci.distributions.betaprime.noncentral_moment"]) (Seq (Eval ["mpsci.distributions.betaprime.noncentral_moment"]) (Seq (Eval ["mpsci.distributions.betaprime.noncentral_moment"]) (Seq (Eval ["mpsci.distributions.betaprime.noncentral_moment"]) (Seq (Eval ["mpsci.distributions.betaprime.mean"]) (Seq (Eval ["mpsci.distributions.betaprime.var"]) (Seq (Eval []) (Return)))))))))));
  (** mpsci/distributions/betaprime.py:262-274 *)
  ("mpsci.distributions.betaprime.noncentral_moment", With (ExtraDps (Num 5)) (Seq (Eval ["mpsci.distributions._common._validate_moment_n"]) (Seq (Eval ["mpsci.distributions.betaprime._validate_params"]) (Seq (Seq (Eval []) (If (Seq (Eval []) (Return)) (Skip))) (Seq (Eval []) (Return))))));
  (** mpsci/distributions/betaprime.py:277-295 *)
  ("mpsci.distributions.betaprime.entropy", With (ExtraDps (Num 5)) (Seq (Eval ["mpsci.distributions.betaprime._validate_params"]) (Seq (Eval []) (Seq (Eval []) (Seq (Eval []) (Seq (Eval []) (Seq (Eval []) (Seq (Eval []) (Seq (Eval ["mpsci.fun._logbeta.logbeta"]) (Return))))))))));
  (** mpsci/distributions/betaprime.py:298-308 *)
  ("mpsci.distributions.betaprime.nll", With (ExtraDps (Num 5)) (Seq (Eval ["mpsci.distributions.betaprime._validate_params"]) (Seq (Eval ["mpsci.distributions._common._validate_x_bounds"]) (Seq (Eval ["mpsci.distributions.betaprime.logpdf"]) (Return)))));
  (** mpsci/distributions/betaprime.py:311-312 *)
  ("mpsci.distributions.betaprime._is_fixed", Seq (Eval []) (Return));
  (** mpsci/distributions/betaprime.py:350-358 *)
  ("mpsci.distributions.betaprime.mle.<locals>.eqns_a_b_scale", Seq (Eval ["mpsci.stats._basic.mean"]) (Seq (Eval ["mpsci.stats._basic.mean"]) (Seq (Eval []) (Seq (Eval []) (Seq (Eval []) (Seq (Eval []) (Seq (Eval []) (Return))))))));
  (** mpsci/distributions/betaprime.py:377-382 *)
  ("mpsci.distributions.betaprime.mle.<locals>.eqns_a_b", Seq (Eval []) (Seq (Eval []) (Seq (Eval []) (Seq (Eval []) (Return)))));
  (** mpsci/distributions/betaprime.py:392-393 *)
  ("mpsci.distributions.betaprime.mle.<locals>.b_eqn", Seq (Eval []) (Return));
  (** mpsci/distributions/betaprime.py:405-407 *)
  ("mpsci.distributions.betaprime.mle.<locals>.a_eqn", Seq (Eval []) (Return));
  (** mpsci/distributions/betaprime.py:418-419 *)
  ("mpsci.distributions.betaprime.mle.<locals>.scale_eqn", Seq (Eval ["mpsci.stats._basic.mean"]) (Return));
  (** mpsci/distributions/betaprime.py:428-433 *)
  ("mpsci.distributions.betaprime.mle.<locals>.scale_eqn", Seq (Eval ["mpsci.stats._basic.mean"]) (Seq (Eval ["mpsci.stats._basic.mean"]) (Seq (Eval []) (Return))));
  (** mpsci/distributions/betaprime.py:446-454 *)
  ("mpsci.distributions.betaprime.mle.<locals>.scale_eqn", Seq (Eval ["mpsci.stats._basic.mean"]) (Seq (Eval ["mpsci.stats._basic.mean"]) (Seq (Eval ["mpsci.stats._basic.mean"]) (Seq (Eval []) (Return)))))
].
Definition table3 : program := [
  (** mpsci/distributions/betaprime.py:315-460 *)
  ("mpsci.distributions.betaprime.mle", With (ExtraDps (Num 5)) (Seq (Eval ["mpsci.distributions.betaprime._is_fixed"]) (Seq (Eval ["mpsci.distributions.betaprime._is_fixed"]) (Seq (Eval ["mpsci.distributions.betaprime._is_fixed"]) (Seq (Eval ["mpsci.distributions._common._validate_x_bounds"]) (Seq (Seq (Eval []) (If (Seq (Eval ["mpsci.distributions.betaprime._validate_params"]) (Return)) (Skip))) (Seq (Seq (Eval []) (If (Seq (Eval ["mpsci.stats._basic.mean"]) (Seq (Eval []) (Seq (Eval []) (Seq (Eval []) (Seq (Eval ["?"; "mpsci.distributions.betaprime.mle.<locals>.eqns_a_b_scale"]) (Seq (Eval []) (Return))))))) (Skip))) (Seq (Eval []) (If (Seq (Eval []) (If (Seq (Eval ["mpsci.distributions.betaprime._validate_params"]) (Seq (Eval ["mpsci.stats._basic.mean"]) (Seq (Eval ["mpsci.stats._basic.mean"]) (Seq (Eval []) (Seq (Eval []) (Seq (Eval []) (Seq (Eval ["?"; "mpsci.distributions.betaprime.mle.<locals>.eqns_a_b"]) (Seq (Eval []) (Return))))))))) (Seq (Eval []) (If (Seq (Eval ["mpsci.distributions.betaprime._validate_params"]) (Seq (Eval ["mpsci.stats._basic.mean"]) (Seq (Eval []) (Seq (Eval ["?"; "mpsci.distributions.betaprime.mle.<locals>.b_eqn"]) (Seq (Eval []) (Return)))))) (Seq (Eval ["mpsci.distributions.betaprime._validate_params"]) (Seq (Eval ["mpsci.stats._basic.mean"]) (Seq (Eval ["mpsci.stats._basic.mean"]) (Seq (Eval []) (Seq (Eval []) (Seq (Eval ["?"; "mpsci.distributions.betaprime.mle.<locals>.a_eqn"]) (Seq (Eval []) (Return)))))))))))) (Seq (Eval []) (If (Seq (Eval ["mpsci.distributions.betaprime._validate_params"]) (Seq (Eval []) (Seq (Eval ["?"; "mpsci.distributions.betaprime.mle.<locals>.scale_eqn"]) (Seq (Eval []) (Return))))) (Seq (Eval []) (If (Seq (Eval ["mpsci.distributions.betaprime._validate_params"]) (Seq (Eval []) (Seq (Eval []) (Seq (Eval ["?"; "mpsci.distributions.betaprime.mle.<locals>.scale_eqn"]) (Seq (Eval ["mpsci.stats._basic.mean"]) (Seq (Eval []) (Seq (Eval []) (Return)))))))) (Seq (Eval ["mpsci.distributions.betaprime._validate_params"]) (Seq (Eval []) (Seq (Eval []) (Seq (Eval ["?"; "mpsci.distributions.betaprime.mle.<locals>.scale_eqn"]) (Seq (Eval ["mpsci.stats._basic.mean"]) (Seq (Eval []) (Seq (Eval []) (Return)))))))))))))))))))));
  (** mpsci/distributions/betaprime.py:1-461 *)
  ("mpsci.distributions.betaprime.<module>", Seq (Eval []) (Seq (Eval []) (Seq (Eval []) (Eval []))));
  (** mpsci/distributions/binomial.py:18-28 *)
  ("mpsci.distributions.binomial._wvar", Seq (Seq (Eval []) (If (Seq (Eval ["mpsci.stats._basic.var"]) (Return)) (Skip))) (Seq (Eval []) (Seq (Eval []) (Seq (Eval ["mpsci.stats._basic.mean"]) (Seq (Eval ["mpsci.stats._basic.mean"]) (Seq (Seq (Eval []) (If (Seq (Eval []) (Eval [])) (Skip))) (Seq (Eval []) (Return))))))));
  (** mpsci/distributions/binomial.py:31-35 *)
  ("mpsci.distributions.binomial._validate_np", Seq (Eval ["mpsci.distributions._common._validate_p"]) (Seq (Seq (Eval []) (If (Seq (Eval []) (Raise)) (Skip))) (Seq (Eval []) (Return))));
  (** mpsci/distributions/binomial.py:38-57 *)
  ("mpsci.distributions.binomial.support", Seq (Eval ["mpsci.distributions.binomial._validate_np"]) (Seq (Eval []) (Return)));
  (** mpsci/distributions/binomial.py:60-68 *)
  ("mpsci.distributions.binomial.pmf", With (ExtraDps (Num 5)) (Seq (Eval ["mpsci.distributions.binomial._validate_np"]) (Seq (Eval []) (Return))));
  (** mpsci/distributions/binomial.py:71-79 *)
  ("mpsci.distributions.binomial.logpmf", With (ExtraDps (Num 5)) (Seq (Eval ["mpsci.distributions.binomial._validate_np"]) (Seq (Eval ["mpsci.fun._logbinomial.logbinomial"]) (Return))));
  (** mpsci/distributions/binomial.py:82-107 *)
  ("mpsci.distributions.binomial.cdf", With (ExtraDps (Num 5)) (Seq (Seq (Eval []) (If (Seq (Eval []) (Raise)) (Skip))) (Seq (Seq (Eval []) (If (Seq (Eval ["mpsci.distributions.binomial._validate_np"]) (Seq (Seq (Eval []) (If (Seq (Eval []) (Return)) (Skip))) (Seq (Eval []) (Return)))) (Skip))) (Seq (Eval ["mpsci.distributions.binomial._validate_np"]) (Seq (Eval ["mpsci.distributions.binomial.logpmf"]) (Seq (Eval []) (Return)))))));
  (** mpsci/distributions/binomial.py:110-133 *)
  ("mpsci.distributions.binomial.sf", With (ExtraDps (Num 5)) (Seq (Seq (Eval []) (If (Seq (Eval []) (Raise)) (Skip))) (Seq (Seq (Eval []) (If (Seq (Eval ["mpsci.distributions.binomial._validate_np"]) (Seq (Eval []) (Return))) (Skip))) (Seq (Eval ["mpsci.distributions.binomial._validate_np"]) (Seq (Eval ["mpsci.distributions.binomial.logpmf"]) (Seq (Eval []) (Return)))))));
  (** mpsci/distributions/binomial.py:136-142 *)
  ("mpsci.distributions.binomial.mean", With (ExtraDps (Num 5)) (Seq (Eval ["mpsci.distributions.binomial._validate_np"]) (Seq (Eval []) (Return))));
  (** mpsci/distributions/binomial.py:145-158 *)
  ("mpsci.distributions.binomial.mode", With (ExtraDps (Num 5)) (Seq (Eval ["mpsci.distributions.binomial._validate_np"]) (Seq (Seq (Eval []) (If (Seq (Eval []) (Return)) (Skip))) (Seq (Seq (Eval []) (If (Seq (Eval []) (Return)) (Skip))) (Seq (Eval []) (Return))))));
  (** mpsci/distributions/binomial.py:161-167 *)
  ("mpsci.distributions.binomial.var", With (ExtraDps (Num 5)) (Seq (Eval ["mpsci.distributions.binomial._validate_np"]) (Seq (Eval []) (Return))));
  (** mpsci/distributions/binomial.py:170-185 *)
  ("mpsci.distributions.binomial.nll", With (ExtraDps (Num 5)) (Seq (Eval ["mpsci.distributions.binomial._validate_np"]) (Seq (Eval ["mpsci.distributions._common._validate_x_bounds"]) (Seq (Seq (Eval []) (If (Seq (Eval []) (Raise)) (Skip))) (Seq (Eval ["mpsci.distributions._common._validate_counts"]) (Seq (Eval ["mpsci.distributions.binomial.logpmf"]) (Return)))))));
  (** mpsci/distributions/binomial.py:188-191 *)
  ("mpsci.distributions.binomial._p_threshold", Seq (Eval []) (Seq (Eval ["mpsci.stats._basic.mean"]) (Seq (Eval []) (Return))));
  (** mpsci/distributions/binomial.py:252-256 *)
  ("mpsci.distributions.binomial.mle.<locals>.mle_n_eqn", Seq (Eval []) (Seq (Eval ["mpsci.stats._basic.mean"]) (Return)));
  (** mpsci/distributions/binomial.py:293-296 *)
  ("mpsci.distributions.binomial.mle.<locals>.mle_n_eqn", Seq (Eval ["mpsci.stats._basic.mean"]) (Return));
  (** mpsci/distributions/binomial.py:194-317 *)
  ("mpsci.distributions.binomial.mle", With (ExtraDps (Num 5)) (Seq (Eval []) (Seq (Seq (Eval []) (If (Seq (Eval []) (Raise)) (Skip))) (Seq (Eval ["mpsci.distributions._common._validate_x_bounds"]) (Seq (Eval []) (Seq (Eval ["mpsci.distributions._common._validate_counts"]) (Seq (Eval ["mpsci.distributions._common.isfixed"]) (Seq (Eval ["mpsci.distributions._common.isfixed"]) (Seq (Seq (Eval []) (If (Seq (Seq (Eval []) (If (Seq (Eval []) (Raise)) (Skip))) (Seq (Eval []) (If (Seq (Eval ["mpsci.distributions.binomial._validate_np"]) (Seq (Eval []) (Return))) (Seq (Eval ["mpsci.distributions.binomial._validate_np"]) (Seq (Eval ["mpsci.stats._basic.mean"]) (Seq (Eval []) (Seq (Eval []) (Return)))))))) (Skip))) (Seq (Eval []) (If (Seq (Seq (Eval []) (If (Seq (Eval []) (Raise)) (Skip))) (Seq (Eval ["mpsci.stats._basic.mean"]) (Seq (Seq (Eval []) (If (Seq (Eval ["mpsci.distributions.binomial._wvar"]) (Seq (Eval []) (If (Seq (Eval []) (Eval [])) (Eval [])))) (Eval []))) (Seq (Eval ["?"; "mpsci.distributions.binomial.mle.<locals>.mle_n_eqn"]) (Seq (Seq (Eval []) (If (Seq (Eval []) (Seq (Eval ["mpsci.distributions.binomial.mle"]) (Return))) (Skip))) (Seq (Eval []) (Seq (Seq (Eval []) (If (Seq (Eval []) (Return)) (Skip))) (Seq (Eval []) (Seq (Eval []) (Seq (Eval []) (Seq (Eval []) (Seq (Eval ["mpsci.distributions.binomial.nll"]) (Seq (Eval ["mpsci.distributions.binomial.nll"]) (Seq (Seq (Eval []) (If (Seq (Eval []) (Return)) (Skip))) (Seq (Eval []) (Return)))))))))))))))) (Seq (Eval ["mpsci.distributions.binomial._validate_np"]) (Seq (Eval ["mpsci.distributions.binomial._p_threshold"]) (Seq (Seq (Eval []) (If (Seq (Eval []) (Seq (Eval []) (Return))) (Skip))) (Seq (Eval ["mpsci.stats._basic.mean"]) (Seq (Eval []) (Seq (Try (Eval ["?"; "mpsci.distributions.binomial.mle.<locals>.mle_n_eqn"]) (Seq (Eval []) (Eval ["?"; "mpsci.distributions.binomial.mle.<locals>.mle_n_eqn"])) (Skip)) (Seq (Seq (Eval []) (If (Seq (Eval []) (Seq (Eval []) (Return))) (Skip))) (Seq (Seq (Eval []) (If (Seq (Eval []) (Return)) (Skip))) (Seq (Eval []) (Seq (Eval []) (Seq (Eval ["mpsci.distributions.binomial.nll"]) (Seq (Eval ["mpsci.distributions.binomial.nll"]) (Seq (Seq (Eval []) (If (Seq (Eval []) (Return)) (Skip))) (Seq (Eval []) (Return))))))))))))))))))))))))));
  (** mpsci/distributions/binomial.py:1-318 *)
  ("mpsci.distributions.binomial.<module>", Eval []);
  (** mpsci/distributions/burr12.py:19-26 *)
  ("mpsci.distributions.burr12._validate_params", Seq (Seq (Eval []) (If (Seq (Eval []) (Raise)) (Skip))) (Seq (Seq (Eval []) (If (Seq (Eval []) (Raise)) (Skip))) (Seq (Seq (Eval []) (If (Seq (Eval []) (Raise)) (Skip))) (Seq (Eval []) (Return)))));
  (** mpsci/distributions/burr12.py:29-39 *)
  ("mpsci.distributions.burr12.pdf", With (ExtraDps (Num 5)) (Seq (Eval ["mpsci.distributions.burr12._validate_params"]) (Seq (Eval []) (Seq (Seq (Eval []) (If (Seq (Eval []) (Return)) (Skip))) (Seq (Eval []) (Seq (Eval []) (Return)))))));
  (** mpsci/distributions/burr12.py:42-52 *)
  ("mpsci.distributions.burr12.logpdf", With (ExtraDps (Num 5)) (Seq (Eval ["mpsci.distributions.burr12._validate_params"]) (Seq (Eval []) (Seq (Seq (Eval []) (If (Seq (Eval []) (Return)) (Skip))) (Seq (Eval []) (Return))))));
  (** mpsci/distributions/burr12.py:55-65 *)
  ("mpsci.distributions.burr12.cdf", With (ExtraDps (Num 5)) (Seq (Eval ["mpsci.distributions.burr12._validate_params"]) (Seq (Eval []) (Seq (Seq (Eval []) (If (Seq (Eval []) (Return)) (Skip))) (Seq (Eval ["mpsci.distributions.burr12.sf"]) (Return))))));
  (** mpsci/distributions/burr12.py:68-75 *)
  ("mpsci.distributions.burr12.invcdf", With (ExtraDps (Num 5)) (Seq (Eval ["mpsci.distributions.burr12._validate_params"]) (Seq (Eval ["mpsci.distributions._common._validate_p"]) (Seq (Eval []) (Return)))));
  (** mpsci/distributions/burr12.py:78-87 *)
  ("mpsci.distributions.burr12.logcdf", With (ExtraDps (Num 5)) (Seq (Eval ["mpsci.distributions.burr12._validate_params"]) (Seq (Eval []) (Seq (Seq (Eval []) (If (Seq (Eval []) (Return)) (Skip))) (Seq (Eval ["mpsci.distributions.burr12.sf"]) (Return))))));
  (** mpsci/distributions/burr12.py:90-99 *)
  ("mpsci.distributions.burr12.sf", With (ExtraDps (Num 5)) (Seq (Eval ["mpsci.distributions.burr12._validate_params"]) (Seq (Eval []) (Seq (Seq (Eval []) (If (Seq (Eval []) (Return)) (Skip))) (Seq (Eval []) (Return))))));
  (** mpsci/distributions/burr12.py:102-109 *)
  ("mpsci.distributions.burr12.invsf", With (ExtraDps (Num 5)) (Seq (Eval ["mpsci.distributions.burr12._validate_params"]) (Seq (Eval ["mpsci.distributions._common._validate_p"]) (Seq (Eval []) (Return)))));
  (** mpsci/distributions/burr12.py:112-121 *)
  ("mpsci.distributions.burr12.logsf", With (ExtraDps (Num 5)) (Seq (Eval ["mpsci.distributions.burr12._validate_params"]) (Seq (Eval []) (Seq (Seq (Eval []) (If (Seq (Eval []) (Return)) (Skip))) (Seq (Eval []) (Return))))));
  (** mpsci/distributions/burr12.py:124-129 *)
  ("mpsci.distributions.burr12.support", Seq (Eval ["mpsci.distributions.burr12._validate_params"]) (Seq (Eval []) (Return)));
  (** mpsci/distributions/burr12.py:132-140 *)
  ("mpsci.distributions.burr12.mean", With (ExtraDps (Num 5)) (Seq (Eval ["mpsci.distributions.burr12._validate_params"]) (Seq (Seq (Eval []) (If (Seq (Eval []) (Return)) (Skip))) (Seq (Eval []) (Return)))));
  (** mpsci/distributions/burr12.py:143-153 *)
  ("mpsci.distributions.burr12.var", With (ExtraDps (Num 5)) (Seq (Eval ["mpsci.distributions.burr12._validate_params"]) (Seq (Seq (Eval []) (If (Seq (Eval []) (Return)) (Skip))) (Seq (Eval ["mpsci.distributions.burr12.mean"]) (Seq (Eval []) (Seq (Eval []) (Return)))))));
  (** mpsci/distributions/burr12.py:156-162 *)
  ("mpsci.distributions.burr12.median", With (ExtraDps (Num 5)) (Seq (Eval ["mpsci.distributions.burr12._validate_params"]) (Seq (Eval []) (Return))));
  (** mpsci/distributions/burr12.py:165-173 *)
  ("mpsci.distributions.burr12.mode", With (ExtraDps (Num 5)) (Seq (Eval ["mpsci.distributions.burr12._validate_params"]) (Seq (Seq (Eval []) (If (Seq (Eval []) (Return)) (Skip))) (Seq (Eval []) (Return)))));
  (** mpsci/distributions/burr12.py:176-185 *)
  ("mpsci.distributions.burr12.nll", With (ExtraDps (Num 5)) (Seq (Eval ["mpsci.distributions.burr12._validate_params"]) (Seq (Eval ["mpsci.distributions._common._validate_x_bounds"]) (Seq (Eval ["mpsci.distributions.burr12.logpdf"]) (Return)))));
  (** mpsci/distributions/burr12.py:191-199 *)
  ("mpsci.distributions.burr12._nll_grad", Seq (Eval []) (Seq (Eval []) (Seq (Eval []) (Seq (Eval []) (Seq (Eval []) (Return))))));
  (** mpsci/distributions/burr12.py:204-205 *)
  ("mpsci.distributions.burr12._mle_c_d_scale.<locals>._first_order_eqs", Seq (Eval ["mpsci.distributions.burr12._nll_grad"]) (Return));
  (** mpsci/distributions/burr12.py:202-208 *)
  ("mpsci.distributions.burr12._mle_c_d_scale", Seq (Eval ["?"; "mpsci.distributions.burr12._mle_c_d_scale.<locals>._first_order_eqs"]) (Seq (Eval []) (Return)));
  (** mpsci/distributions/burr12.py:215-220 *)
  ("mpsci.distributions.burr12._mle_d_scale.<locals>._eq_scale", Seq (Eval []) (Seq (Eval []) (Seq (Eval []) (Seq (Eval []) (Seq (Eval []) (Return))))));
  (** mpsci/distributions/burr12.py:211-225 *)
  ("mpsci.distributions.burr12._mle_d_scale", Seq (Eval []) (Seq (Eval ["?"; "mpsci.distributions.burr12._mle_d_scale.<locals>._eq_scale"]) (Seq (Eval []) (Seq (Eval []) (Seq (Eval []) (Return))))));
  (** mpsci/distributions/burr12.py:230-232 *)
  ("mpsci.distributions.burr12._mle_c_scale.<locals>._first_order_eqs", Seq (Eval ["mpsci.distributions.burr12._nll_grad"]) (Seq (Eval []) (Return)));
  (** mpsci/distributions/burr12.py:228-235 *)
  ("mpsci.distributions.burr12._mle_c_scale", Seq (Eval ["?"; "mpsci.distributions.burr12._mle_c_scale.<locals>._first_order_eqs"]) (Seq (Eval []) (Return)));
  (** mpsci/distributions/burr12.py:238-247 *)
  ("mpsci.distributions.burr12._scale_eq_c_and_d_fixed", With (ExtraDps (Num 5)) (Seq (Eval []) (Seq (Eval []) (Seq (Eval []) (Seq (Eval []) (Seq (Eval []) (Seq (Eval []) (Seq (Eval ["mpsci.stats._basic.mean"]) (Seq (Eval []) (Return))))))))));
  (** mpsci/distributions/burr12.py:250-259 *)
  ("mpsci.distributions.burr12._find_scale_bracket_c_and_d_fixed", With (ExtraDps (Num 5)) (Seq (Eval []) (Seq (Eval []) (Seq (Eval ["mpsci.distributions.burr12._scale_eq_c_and_d_fixed"]) (Seq (Seq (Eval []) (Loop (Seq (Seq (Eval []) (Seq (Eval []) (Eval ["mpsci.distributions.burr12._scale_eq_c_and_d_fixed"]))) (Eval [])))) (Seq (Eval []) (Return)))))));
  (** mpsci/distributions/burr12.py:262-272 *)
  ("mpsci.distributions.burr12._c_eq_d_and_scale_fixed", With (ExtraDps (Num 5)) (Seq (Eval []) (Seq (Eval []) (Seq (Eval []) (Seq (Eval []) (Seq (Eval []) (Seq (Eval []) (Seq (Eval []) (Seq (Eval []) (Return))))))))));
  (** mpsci/distributions/burr12.py:275-284 *)
  ("mpsci.distributions.burr12._find_c_bracket_d_and_scale_fixed", With (ExtraDps (Num 5)) (Seq (Eval []) (Seq (Eval []) (Seq (Eval ["mpsci.distributions.burr12._c_eq_d_and_scale_fixed"]) (Seq (Seq (Eval []) (Loop (Seq (Seq (Eval []) (Seq (Eval []) (Eval ["mpsci.distributions.burr12._c_eq_d_and_scale_fixed"]))) (Eval [])))) (Seq (Eval []) (Return)))))));
  (** mpsci/distributions/burr12.py:287-297 *)
  ("mpsci.distributions.burr12._c_eq_scale_fixed", With (ExtraDps (Num 5)) (Seq (Eval []) (Seq (Eval []) (Seq (Eval []) (Seq (Eval []) (Seq (Eval []) (Seq (Eval []) (Seq (Eval ["mpsci.stats._basic.mean"]) (Seq (Eval []) (Return))))))))));
  (** mpsci/distributions/burr12.py:300-309 *)
  ("mpsci.distributions.burr12._find_c_bracket_scale_fixed", With (ExtraDps (Num 5)) (Seq (Eval []) (Seq (Eval []) (Seq (Eval ["mpsci.distributions.burr12._c_eq_scale_fixed"]) (Seq (Seq (Eval []) (Loop (Seq (Seq (Eval []) (Seq (Eval []) (Eval ["mpsci.distributions.burr12._c_eq_scale_fixed"]))) (Eval [])))) (Seq (Eval []) (Return)))))));
  (** mpsci/distributions/burr12.py:344-344 *)
  ("mpsci.distributions.burr12.mle.<lambda>@344", Eval ["mpsci.distributions.burr12._scale_eq_c_and_d_fixed"]);
  (** mpsci/distributions/burr12.py:360-360 *)
  ("mpsci.distributions.burr12.mle.<lambda>@360", Eval ["mpsci.distributions.burr12._c_eq_d_and_scale_fixed"]);
  (** mpsci/distributions/burr12.py:370-370 *)
  ("mpsci.distributions.burr12.mle.<lambda>@370", Eval ["mpsci.distributions.burr12._c_eq_scale_fixed"]);
  (** mpsci/distributions/burr12.py:312-390 *)
  ("mpsci.distributions.burr12.mle", With (ExtraDps (Num 5)) (Seq (Eval ["mpsci.distributions._common._validate_x_bounds"]) (Seq (Eval ["mpsci.distributions._common.isfixed"]) (Seq (Eval ["mpsci.distributions._common.isfixed"]) (Seq (Eval ["mpsci.distributions._common.isfixed"]) (Seq (Seq (Eval []) (If (Seq (Eval ["mpsci.distributions.burr12._validate_params"]) (Seq (Eval []) (Return))) (Seq (Eval []) (If (Seq (Eval []) (Seq (Eval []) (Seq (Eval ["mpsci.distributions.burr12._validate_params"]) (Seq (Eval ["mpsci.distributions.burr12._mle_d_scale"]) (Seq (Eval []) (Return)))))) (Seq (Eval []) (If (Seq (Eval []) (Seq (Eval ["mpsci.distributions.burr12._validate_params"]) (Seq (Eval ["mpsci.distributions.burr12._find_scale_bracket_c_and_d_fixed"]) (Seq (Eval ["?"; "mpsci.distributions.burr12.mle.<lambda>@344"]) (Seq (Eval []) (Return)))))) (Seq (Eval []) (If (Seq (Eval []) (Seq (Eval ["mpsci.distributions.burr12._validate_params"]) (Seq (Eval ["mpsci.stats._basic.mean"]) (Seq (Eval []) (Return))))) (Seq (Eval []) (If (Seq (Eval []) (Seq (Eval ["mpsci.distributions.burr12._validate_params"]) (Seq (Eval ["mpsci.distributions.burr12._find_c_bracket_d_and_scale_fixed"]) (Seq (Eval ["?"; "mpsci.distributions.burr12.mle.<lambda>@360"]) (Seq (Eval []) (Return)))))) (Seq (Eval []) (If (Seq (Eval []) (Seq (Eval []) (Seq (Eval ["mpsci.distributions.burr12._validate_params"]) (Seq (Eval ["mpsci.distributions.burr12._find_c_bracket_scale_fixed"]) (Seq (Eval ["?"; "mpsci.distributions.burr12.mle.<lambda>@370"]) (Seq (Eval ["mpsci.stats._basic.mean"]) (Seq (Eval []) (Return)))))))) (Seq (Eval []) (If (Seq (Eval []) (Seq (Eval []) (Seq (Eval ["mpsci.distributions.burr12._validate_params"]) (Seq (Eval ["mpsci.distributions.burr12._mle_c_scale"]) (Seq (Eval []) (Return)))))) (Skip))))))))))))))) (Seq (Eval []) (Seq (Eval []) (Seq (Eval []) (Seq (Eval ["mpsci.distributions.burr12._validate_params"]) (Seq (Eval ["mpsci.distributions.burr12._mle_c_d_scale"]) (Seq (Eval []) (Return)))))))))))));
  (** mpsci/distributions/burr12.py:1-391 *)
  ("mpsci.distributions.burr12.<module>", Eval []);
  (** mpsci/distributions/cauchy.py:15-20 *)
  ("mpsci.distributions.cauchy.support", Seq (Eval ["mpsci.distributions._common._validate_loc_scale"]) (Seq (Eval []) (Return)));
  (** mpsci/distributions/cauchy.py:23-29 *)
  ("mpsci.distributions.cauchy.pdf", With (ExtraDps (Num 5)) (Seq (Eval []) (Seq (Eval ["mpsci.distributions._common._validate_loc_scale"]) (Seq (Eval []) (Seq (Eval []) (Return))))));
  (** mpsci/distributions/cauchy.py:32-38 *)
  ("mpsci.distributions.cauchy.logpdf", With (ExtraDps (Num 5)) (Seq (Eval []) (Seq (Eval ["mpsci.distributions._common._validate_loc_scale"]) (Seq (Eval []) (Seq (Eval []) (Return))))));
  (** mpsci/distributions/cauchy.py:41-47 *)
  ("mpsci.distributions.cauchy.cdf", With (ExtraDps (Num 5)) (Seq (Eval []) (Seq (Eval ["mpsci.distributions._common._validate_loc_scale"]) (Seq (Eval []) (Seq (Eval []) (Return))))));
  (** mpsci/distributions/cauchy.py:50-55 *)
  ("mpsci.distributions.cauchy.invcdf", With (ExtraDps (Num 5)) (Seq (Eval ["mpsci.distributions._common._validate_p"]) (Seq (Eval ["mpsci.distributions._common._validate_loc_scale"]) (Seq (Eval []) (Return)))));
  (** mpsci/distributions/cauchy.py:58-64 *)
  ("mpsci.distributions.cauchy.sf", With (ExtraDps (Num 5)) (Seq (Eval []) (Seq (Eval ["mpsci.distributions._common._validate_loc_scale"]) (Seq (Eval []) (Seq (Eval []) (Return))))));
  (** mpsci/distributions/cauchy.py:67-72 *)
  ("mpsci.distributions.cauchy.invsf", With (ExtraDps (Num 5)) (Seq (Eval ["mpsci.distributions._common._validate_p"]) (Seq (Eval ["mpsci.distributions._common._validate_loc_scale"]) (Seq (Eval []) (Return)))));
  (** mpsci/distributions/cauchy.py:75-82 *)
  ("mpsci.distributions.cauchy.mean", Seq (Eval ["mpsci.distributions._common._validate_loc_scale"]) (Seq (Eval []) (Return)));
  (** mpsci/distributions/cauchy.py:85-92 *)
  ("mpsci.distributions.cauchy.mode", Seq (Eval ["mpsci.distributions._common._validate_loc_scale"]) (Seq (Eval []) (Return)))
].
Definition table4 : program := [
  (** mpsci/distributions/cauchy.py:95-102 *)
  ("mpsci.distributions.cauchy.var", Seq (Eval ["mpsci.distributions._common._validate_loc_scale"]) (Seq (Eval []) (Return)));
  (** mpsci/distributions/cauchy.py:105-113 *)
  ("mpsci.distributions.cauchy.entropy", With (ExtraDps (Num 5)) (Seq (Eval ["mpsci.distributions._common._validate_loc_scale"]) (Seq (Eval []) (Return))));
  (** mpsci/distributions/cauchy.py:1-114 *)
  ("mpsci.distributions.cauchy.<module>", Eval []);
  (** mpsci/distributions/chi.py:15-18 *)
  ("mpsci.distributions.chi._validate_k", Seq (Seq (Eval []) (If (Seq (Eval []) (Raise)) (Skip))) (Seq (Eval []) (Return)));
  (** mpsci/distributions/chi.py:21-35 *)
  ("mpsci.distributions.chi.pdf", With (ExtraDps (Num 5)) (Seq (Eval ["mpsci.distributions.chi._validate_k"]) (Seq (Seq (Eval []) (If (Seq (Eval []) (Return)) (Skip))) (Seq (Eval ["mpsci.distributions.chi.logpdf"]) (Return)))));
  (** mpsci/distributions/chi.py:52-63 *)
  ("mpsci.distributions.chi.logpdf", With (ExtraDps (Num 5)) (Seq (Eval ["mpsci.distributions.chi._validate_k"]) (Seq (Eval []) (Seq (Seq (Eval []) (If (Seq (Eval []) (Return)) (Skip))) (Seq (Eval []) (Seq (Eval []) (Return)))))));
  (** mpsci/distributions/chi.py:66-76 *)
  ("mpsci.distributions.chi.cdf", With (ExtraDps (Num 5)) (Seq (Eval ["mpsci.distributions.chi._validate_k"]) (Seq (Eval []) (Seq (Seq (Eval []) (If (Seq (Eval []) (Return)) (Skip))) (Seq (Eval []) (Seq (Eval []) (Return)))))));
  (** mpsci/distributions/chi.py:79-89 *)
  ("mpsci.distributions.chi.sf", With (ExtraDps (Num 5)) (Seq (Eval ["mpsci.distributions.chi._validate_k"]) (Seq (Eval []) (Seq (Seq (Eval []) (If (Seq (Eval []) (Return)) (Skip))) (Seq (Eval []) (Seq (Eval []) (Return)))))));
  (** mpsci/distributions/chi.py:92-97 *)
  ("mpsci.distributions.chi.support", Seq (Eval ["mpsci.distributions.chi._validate_k"]) (Seq (Eval []) (Return)));
  (** mpsci/distributions/chi.py:100-112 *)
  ("mpsci.distributions.chi.mode", With (ExtraDps (Num 5)) (Seq (Eval ["mpsci.distributions.chi._validate_k"]) (Seq (Seq (Eval []) (If (Seq (Eval []) (Return)) (Skip))) (Seq (Eval []) (Return)))));
  (** mpsci/distributions/chi.py:122-128 *)
  ("mpsci.distributions.chi.mean", With (ExtraDps (Num 5)) (Seq (Eval ["mpsci.distributions.chi._validate_k"]) (Seq (Eval []) (Return))));
  (** mpsci/distributions/chi.py:131-138 *)
  ("mpsci.distributions.chi.var", With (ExtraDps (Num 5)) (Seq (Eval ["mpsci.distributions.chi._validate_k"]) (Seq (Eval ["mpsci.distributions.chi.mean"]) (Seq (Eval []) (Return)))));
  (** mpsci/distributions/chi.py:141-148 *)
  ("mpsci.distributions.chi.entropy", With (ExtraDps (Num 5)) (Seq (Eval ["mpsci.distributions.chi._validate_k"]) (Seq (Eval []) (Seq (Eval []) (Return)))));
  (** mpsci/distributions/chi.py:151-162 *)
  ("mpsci.distributions.chi.noncentral_moment", With (ExtraDps (Num 5)) (Seq (Eval ["mpsci.distributions._common._validate_moment_n"]) (Seq (Eval ["mpsci.distributions.chi._validate_k"]) (Seq (Seq (Eval []) (If (Seq (Eval []) (Return)) (Skip))) (Seq (Eval []) (Return))))));
  (** mpsci/distributions/chi.py:1-163 *)
  ("mpsci.distributions.chi.<module>", Seq (Eval []) (Seq (Eval []) (Seq (Eval []) (Eval []))));
  (** mpsci/distributions/chi2.py:16-19 *)
  ("mpsci.distributions.chi2._validate_k", Seq (Seq (Eval []) (If (Seq (Eval []) (Raise)) (Skip))) (Seq (Eval []) (Return)));
  (** mpsci/distributions/chi2.py:22-32 *)
  ("mpsci.distributions.chi2.pdf", With (ExtraDps (Num 5)) (Seq (Eval ["mpsci.distributions.chi2._validate_k"]) (Seq (Eval []) (Seq (Seq (Eval []) (If (Seq (Eval []) (Return)) (Skip))) (Seq (Eval []) (Seq (Eval []) (Return)))))));
  (** mpsci/distributions/chi2.py:35-45 *)
  ("mpsci.distributions.chi2.logpdf", With (ExtraDps (Num 5)) (Seq (Eval ["mpsci.distributions.chi2._validate_k"]) (Seq (Eval []) (Seq (Seq (Eval []) (If (Seq (Eval []) (Return)) (Skip))) (Seq (Eval []) (Seq (Eval []) (Return)))))));
  (** mpsci/distributions/chi2.py:48-58 *)
  ("mpsci.distributions.chi2.cdf", With (ExtraDps (Num 5)) (Seq (Eval ["mpsci.distributions.chi2._validate_k"]) (Seq (Eval []) (Seq (Seq (Eval []) (If (Seq (Eval []) (Return)) (Skip))) (Seq (Eval []) (Seq (Eval []) (Return)))))));
  (** mpsci/distributions/chi2.py:74-74 *)
  ("mpsci.distributions.chi2.invcdf.<lambda>@74", Eval ["mpsci.distributions.chi2.cdf"]);
  (** mpsci/distributions/chi2.py:61-75 *)
  ("mpsci.distributions.chi2.invcdf", Seq (Eval ["mpsci.distributions._common._generic_inv"; "mpsci.distributions.chi2.invcdf.<lambda>@74"]) (Return));
  (** mpsci/distributions/chi2.py:89-89 *)
  ("mpsci.distributions.chi2.invcdf_k.<lambda>@89", Eval ["mpsci.distributions.chi2.cdf"]);
  (** mpsci/distributions/chi2.py:78-90 *)
  ("mpsci.distributions.chi2.invcdf_k", Seq (Eval ["mpsci.distributions._common._generic_inv"; "mpsci.distributions.chi2.invcdf_k.<lambda>@89"]) (Return));
  (** mpsci/distributions/chi2.py:93-103 *)
  ("mpsci.distributions.chi2.sf", With (ExtraDps (Num 5)) (Seq (Eval ["mpsci.distributions.chi2._validate_k"]) (Seq (Eval []) (Seq (Seq (Eval []) (If (Seq (Eval []) (Return)) (Skip))) (Seq (Eval []) (Seq (Eval []) (Return)))))));
  (** mpsci/distributions/chi2.py:119-119 *)
  ("mpsci.distributions.chi2.invsf.<lambda>@119", Eval ["mpsci.distributions.chi2.sf"]);
  (** mpsci/distributions/chi2.py:106-120 *)
  ("mpsci.distributions.chi2.invsf", Seq (Eval ["mpsci.distributions._common._generic_inv"; "mpsci.distributions.chi2.invsf.<lambda>@119"]) (Return));
  (** mpsci/distributions/chi2.py:134-134 *)
  ("mpsci.distributions.chi2.invsf_k.<lambda>@134", Eval ["mpsci.distributions.chi2.sf"]);
  (** mpsci/distributions/chi2.py:123-135 *)
  ("mpsci.distributions.chi2.invsf_k", Seq (Eval ["mpsci.distributions._common._generic_inv"; "mpsci.distributions.chi2.invsf_k.<lambda>@134"]) (Return));
  (** mpsci/distributions/chi2.py:138-143 *)
  ("mpsci.distributions.chi2.support", Seq (Eval ["mpsci.distributions.chi2._validate_k"]) (Seq (Eval []) (Return)));
  (** mpsci/distributions/chi2.py:146-151 *)
  ("mpsci.distributions.chi2.mean", Seq (Eval ["mpsci.distributions.chi2._validate_k"]) (Seq (Eval []) (Return)));
  (** mpsci/distributions/chi2.py:154-162 *)
  ("mpsci.distributions.chi2.mode", With (ExtraDps (Num 5)) (Seq (Eval ["mpsci.distributions.chi2._validate_k"]) (Seq (Eval []) (Return))));
  (** mpsci/distributions/chi2.py:165-171 *)
  ("mpsci.distributions.chi2.var", With (ExtraDps (Num 5)) (Seq (Eval ["mpsci.distributions.chi2._validate_k"]) (Seq (Eval []) (Return))));
  (** mpsci/distributions/chi2.py:174-181 *)
  ("mpsci.distributions.chi2.entropy", With (ExtraDps (Num 5)) (Seq (Eval ["mpsci.distributions.chi2._validate_k"]) (Seq (Eval []) (Seq (Eval []) (Return)))));
  (** mpsci/distributions/chi2.py:184-195 *)
  ("mpsci.distributions.chi2.noncentral_moment", With (ExtraDps (Num 5)) (Seq (Eval ["mpsci.distributions._common._validate_moment_n"]) (Seq (Eval ["mpsci.distributions.chi2._validate_k"]) (Seq (Seq (Eval []) (If (Seq (Eval []) (Return)) (Skip))) (Seq (Eval []) (Return))))));
  (** mpsci/distributions/chi2.py:1-196 *)
  ("mpsci.distributions.chi2.<module>", Eval []);
  (** mpsci/distributions/cosine.py:19-33 *)
  ("mpsci.distributions.cosine.pdf", With (ExtraDps (Div (Add Dps (Num 1)) (Num 2))) (Seq (Eval []) (Seq (Seq (Eval []) (If (Seq (Eval []) (Return)) (Skip))) (Seq (Eval []) (Return)))));
  (** mpsci/distributions/cosine.py:49-62 *)
  ("mpsci.distributions.cosine.logpdf", With (ExtraDps (Div (Add Dps (Num 1)) (Num 2))) (Seq (Seq (Eval []) (If (Seq (Eval []) (Return)) (Skip))) (Seq (Eval []) (Return))));
  (** mpsci/distributions/cosine.py:71-85 *)
  ("mpsci.distributions.cosine.cdf", With (ExtraDps (Num 5)) (Seq (Eval []) (Seq (Seq (Eval []) (If (Seq (Eval []) (Return)) (Skip))) (Seq (Seq (Eval []) (If (Seq (Eval []) (Return)) (Skip))) (Seq (Eval []) (Return))))));
  (** mpsci/distributions/cosine.py:103-108 *)
  ("mpsci.distributions.cosine._p2", Seq (Eval []) (Seq (Eval []) (Return)));
  (** mpsci/distributions/cosine.py:111-116 *)
  ("mpsci.distributions.cosine._q2", Seq (Eval []) (Seq (Eval []) (Return)));
  (** mpsci/distributions/cosine.py:119-139 *)
  ("mpsci.distributions.cosine._poly_approx", Seq (Eval []) (Seq (Eval []) (Return)));
  (** mpsci/distributions/cosine.py:163-163 *)
  ("mpsci.distributions.cosine.invcdf.<lambda>@163", Eval ["mpsci.distributions.cosine.cdf"]);
  (** mpsci/distributions/cosine.py:165-165 *)
  ("mpsci.distributions.cosine.invcdf.<lambda>@165", Eval []);
  (** mpsci/distributions/cosine.py:166-166 *)
  ("mpsci.distributions.cosine.invcdf.<lambda>@166", Eval []);
  (** mpsci/distributions/cosine.py:142-169 *)
  ("mpsci.distributions.cosine.invcdf", With (ExtraDps (Num 5)) (Seq (Eval ["mpsci.distributions._common._validate_p"]) (Seq (Seq (Eval []) (If (Seq (Eval []) (Return)) (Skip))) (Seq (Seq (Eval []) (If (Seq (Eval []) (Return)) (Skip))) (Seq (Seq (Eval []) (If (Eval ["mpsci.distributions.cosine._poly_approx"]) (Seq (Eval []) (If (Eval ["mpsci.distributions.cosine._poly_approx"]) (Seq (Eval []) (Seq (Eval []) (Eval ["mpsci.distributions.cosine._p2"; "mpsci.distributions.cosine._q2"]))))))) (Seq (Eval []) (Seq (Eval ["?"; "mpsci.distributions.cosine.invcdf.<lambda>@163"; "mpsci.distributions.cosine.invcdf.<lambda>@165"; "mpsci.distributions.cosine.invcdf.<lambda>@166"]) (Seq (Eval []) (Return)))))))));
  (** mpsci/distributions/cosine.py:172-176 *)
  ("mpsci.distributions.cosine.sf", Seq (Eval ["mpsci.distributions.cosine.cdf"]) (Return));
  (** mpsci/distributions/cosine.py:179-183 *)
  ("mpsci.distributions.cosine.invsf", Seq (Eval ["mpsci.distributions.cosine.invcdf"]) (Return));
  (** mpsci/distributions/cosine.py:186-190 *)
  ("mpsci.distributions.cosine.support", Seq (Eval []) (Return));
  (** mpsci/distributions/cosine.py:193-199 *)
  ("mpsci.distributions.cosine.mean", Seq (Eval []) (Return));
  (** mpsci/distributions/cosine.py:202-208 *)
  ("mpsci.distributions.cosine.mode", Seq (Eval []) (Return));
  (** mpsci/distributions/cosine.py:211-218 *)
  ("mpsci.distributions.cosine.var", With (ExtraDps (Num 5)) (Seq (Eval []) (Return)));
  (** mpsci/distributions/cosine.py:221-227 *)
  ("mpsci.distributions.cosine.skewness", Seq (Eval []) (Return));
  (** mpsci/distributions/cosine.py:230-238 *)
  ("mpsci.distributions.cosine.kurtosis", With (ExtraDps (Num 5)) (Seq (Eval []) (Seq (Eval []) (Return))));
  (** mpsci/distributions/cosine.py:1-239 *)
  ("mpsci.distributions.cosine.<module>", Seq (Eval []) (Seq (Eval []) (Seq (Eval []) (Seq (Eval []) (Seq (Eval []) (Eval []))))));
  (** mpsci/distributions/dirichlet.py:16-20 *)
  ("mpsci.distributions.dirichlet._validate_alpha", Seq (Seq (Eval []) (Loop (Seq (Eval []) (If (Seq (Eval []) (Raise)) (Skip))))) (Seq (Eval []) (Return)));
  (** mpsci/distributions/dirichlet.py:23-32 *)
  ("mpsci.distributions.dirichlet._validate_x", Seq (Seq (Eval []) (Loop (Seq (Eval []) (If (Seq (Eval []) (Raise)) (Skip))))) (Seq (Eval []) (Seq (Eval []) (Seq (Seq (Eval []) (If (Seq (Eval []) (Raise)) (Skip))) (Seq (Eval []) (Return))))));
  (** mpsci/distributions/dirichlet.py:35-40 *)
  ("mpsci.distributions.dirichlet._validate_x_alpha", Seq (Eval ["mpsci.distributions.dirichlet._validate_alpha"]) (Seq (Eval ["mpsci.distributions.dirichlet._validate_x"]) (Seq (Seq (Eval []) (If (Seq (Eval []) (Raise)) (Skip))) (Seq (Eval []) (Return)))));
  (** mpsci/distributions/dirichlet.py:43-52 *)
  ("mpsci.distributions.dirichlet.logpdf", Seq (Eval ["mpsci.distributions.dirichlet._validate_x_alpha"]) (With (ExtraDps (Num 5)) (Seq (Eval ["mpsci.fun._logbeta.multivariate_logbeta"]) (Seq (Eval ["mpsci.fun._xlogy.xlogy"]) (Seq (Eval []) (Seq (Eval []) (Return)))))));
  (** mpsci/distributions/dirichlet.py:55-59 *)
  ("mpsci.distributions.dirichlet.pdf", Seq (Eval ["mpsci.distributions.dirichlet.logpdf"]) (Return));
  (** mpsci/distributions/dirichlet.py:62-69 *)
  ("mpsci.distributions.dirichlet.mean", Seq (Eval ["mpsci.distributions.dirichlet._validate_alpha"]) (With (ExtraDps (Num 5)) (Seq (Eval []) (Seq (Eval []) (Return)))))
].
Definition table5 : program := [
  (** mpsci/distributions/dirichlet.py:72-89 *)
  ("mpsci.distributions.dirichlet.cov", Seq (Eval ["mpsci.distributions.dirichlet._validate_alpha"]) (Seq (Eval []) (Seq (With (ExtraDps (Num 5)) (Seq (Eval []) (Seq (Eval []) (Seq (Eval []) (Seq (Eval []) (Loop (Seq (Eval []) (Seq (Eval []) (Loop (Seq (Eval []) (Eval []))))))))))) (Seq (Eval []) (Return)))));
  (** mpsci/distributions/dirichlet.py:92-102 *)
  ("mpsci.distributions.dirichlet.entropy", Seq (Eval ["mpsci.distributions.dirichlet._validate_alpha"]) (With (ExtraDps (Num 5)) (Seq (Eval []) (Seq (Eval ["mpsci.fun._logbeta.multivariate_logbeta"]) (Seq (Eval []) (Seq (Eval []) (Seq (Eval []) (Return))))))));
  (** mpsci/distributions/dirichlet.py:1-103 *)
  ("mpsci.distributions.dirichlet.<module>", Seq (Eval []) (Eval []));
  (** mpsci/distributions/exponweib.py:13-20 *)
  ("mpsci.distributions.exponweib._validate_params", Seq (Seq (Eval []) (If (Seq (Eval []) (Raise)) (Skip))) (Seq (Seq (Eval []) (If (Seq (Eval []) (Raise)) (Skip))) (Seq (Seq (Eval []) (If (Seq (Eval []) (Raise)) (Skip))) (Seq (Eval []) (Return)))));
  (** mpsci/distributions/exponweib.py:23-37 *)
  ("mpsci.distributions.exponweib.pdf", With (ExtraDps (Num 5)) (Seq (Eval ["mpsci.distributions.exponweib._validate_params"]) (Seq (Eval []) (Seq (Seq (Eval []) (If (Seq (Eval []) (Return)) (Skip))) (Seq (Eval []) (Seq (Eval []) (Seq (Eval []) (Return))))))));
  (** mpsci/distributions/exponweib.py:40-58 *)
  ("mpsci.distributions.exponweib.logpdf", With (ExtraDps (Num 5)) (Seq (Eval ["mpsci.distributions.exponweib._validate_params"]) (Seq (Eval []) (Seq (Seq (Eval []) (If (Seq (Eval []) (Return)) (Skip))) (Seq (Eval []) (Seq (Eval []) (Seq (Eval []) (Return))))))));
  (** mpsci/distributions/exponweib.py:61-76 *)
  ("mpsci.distributions.exponweib.cdf", With (ExtraDps (Num 5)) (Seq (Eval ["mpsci.distributions.exponweib._validate_params"]) (Seq (Eval []) (Seq (Seq (Eval []) (If (Seq (Eval []) (Return)) (Skip))) (Seq (Eval []) (Seq (Eval []) (Return)))))));
  (** mpsci/distributions/exponweib.py:79-86 *)
  ("mpsci.distributions.exponweib.invcdf", With (ExtraDps (Num 5)) (Seq (Eval ["mpsci.distributions.exponweib._validate_params"]) (Seq (Eval ["mpsci.distributions._common._validate_p"]) (Seq (Eval []) (Return)))));
  (** mpsci/distributions/exponweib.py:89-99 *)
  ("mpsci.distributions.exponweib.sf", With (ExtraDps (Num 5)) (Seq (Eval ["mpsci.distributions.exponweib._validate_params"]) (Seq (Eval []) (Seq (Seq (Eval []) (If (Seq (Eval []) (Return)) (Skip))) (Seq (Eval []) (Seq (Eval []) (Return)))))));
  (** mpsci/distributions/exponweib.py:102-109 *)
  ("mpsci.distributions.exponweib.invsf", With (ExtraDps (Num 5)) (Seq (Eval ["mpsci.distributions.exponweib._validate_params"]) (Seq (Eval ["mpsci.distributions._common._validate_p"]) (Seq (Eval []) (Return)))));
  (** mpsci/distributions/exponweib.py:112-117 *)
  ("mpsci.distributions.exponweib.support", Seq (Eval ["mpsci.distributions.exponweib._validate_params"]) (Seq (Eval []) (Return)));
  (** mpsci/distributions/exponweib.py:120-132 *)
  ("mpsci.distributions.exponweib._a_coeff", Seq (Eval []) (Seq (Seq (Eval []) (Loop (Eval []))) (Seq (Eval []) (Return))));
  (** mpsci/distributions/exponweib.py:135-146 *)
  ("mpsci.distributions.exponweib._term", Seq (Eval []) (Seq (Eval []) (Seq (Eval ["mpsci.distributions.exponweib._a_coeff"]) (Return))));
  (** mpsci/distributions/exponweib.py:160-160 *)
  ("mpsci.distributions.exponweib.noncentral_moment.<lambda>@160", Eval ["mpsci.distributions.exponweib._term"]);
  (** mpsci/distributions/exponweib.py:149-161 *)
  ("mpsci.distributions.exponweib.noncentral_moment", With (ExtraDps (Num 5)) (Seq (Eval ["mpsci.distributions.exponweib._validate_params"]) (Seq (Eval ["?"; "mpsci.distributions.exponweib.noncentral_moment.<lambda>@160"]) (Seq (Eval []) (Return)))));
  (** mpsci/distributions/exponweib.py:164-170 *)
  ("mpsci.distributions.exponweib.mean", Seq (Eval ["mpsci.distributions.exponweib.noncentral_moment"]) (Return));
  (** mpsci/distributions/exponweib.py:173-187 *)
  ("mpsci.distributions.exponweib.var", With (ExtraDps (Num 5)) (Seq (Eval ["mpsci.distributions.exponweib.noncentral_moment"]) (Seq (Eval ["mpsci.distributions.exponweib.noncentral_moment"]) (Seq (Eval []) (Return)))));
  (** mpsci/distributions/exponweib.py:1-188 *)
  ("mpsci.distributions.exponweib.<module>", Eval []);
  (** mpsci/distributions/f.py:16-21 *)
  ("mpsci.distributions.f._validate_params", Seq (Seq (Eval []) (If (Seq (Eval []) (Raise)) (Skip))) (Seq (Seq (Eval []) (If (Seq (Eval []) (Raise)) (Skip))) (Seq (Eval []) (Return))));
  (** mpsci/distributions/f.py:24-42 *)
  ("mpsci.distributions.f.pdf", With (ExtraDps (Num 5)) (Seq (Eval ["mpsci.distributions.f._validate_params"]) (Seq (Eval []) (Seq (Seq (Eval []) (If (Seq (Eval []) (Return)) (Skip))) (Seq (Eval []) (Seq (Eval []) (Seq (Eval []) (Seq (Eval []) (Seq (Eval []) (Return))))))))));
  (** mpsci/distributions/f.py:45-63 *)
  ("mpsci.distributions.f.logpdf", With (ExtraDps (Num 5)) (Seq (Eval ["mpsci.distributions.f._validate_params"]) (Seq (Eval []) (Seq (Seq (Eval []) (If (Seq (Eval []) (Return)) (Skip))) (Seq (Eval []) (Seq (Eval []) (Seq (Eval []) (Seq (Eval ["mpsci.fun._xlogy.xlogy"; "mpsci.fun._xlogy.xlog1py"; "mpsci.fun._logbeta.logbeta"]) (Seq (Eval []) (Return))))))))));
  (** mpsci/distributions/f.py:66-79 *)
  ("mpsci.distributions.f.cdf", With (ExtraDps (Num 5)) (Seq (Eval ["mpsci.distributions.f._validate_params"]) (Seq (Eval []) (Seq (Seq (Eval []) (If (Seq (Eval []) (Return)) (Skip))) (Seq (Eval []) (Seq (Eval []) (Return)))))));
  (** mpsci/distributions/f.py:82-93 *)
  ("mpsci.distributions.f.invcdf", With (ExtraDps (Num 5)) (Seq (Eval ["mpsci.distributions.f._validate_params"]) (Seq (Eval ["mpsci.distributions._common._validate_p"]) (Seq (Eval ["mpsci.fun._inv_reg_inc_beta.betaincinv"]) (Seq (Eval []) (Return))))));
  (** mpsci/distributions/f.py:96-109 *)
  ("mpsci.distributions.f.sf", With (ExtraDps (Num 5)) (Seq (Eval ["mpsci.distributions.f._validate_params"]) (Seq (Eval []) (Seq (Seq (Eval []) (If (Seq (Eval []) (Return)) (Skip))) (Seq (Eval []) (Seq (Eval []) (Return)))))));
  (** mpsci/distributions/f.py:112-123 *)
  ("mpsci.distributions.f.invsf", With (ExtraDps (Num 5)) (Seq (Eval ["mpsci.distributions.f._validate_params"]) (Seq (Eval ["mpsci.distributions._common._validate_p"]) (Seq (Eval ["mpsci.fun._inv_reg_inc_beta.betaincinv"]) (Seq (Eval []) (Return))))));
  (** mpsci/distributions/f.py:126-132 *)
  ("mpsci.distributions.f.support", With (ExtraDps (Num 5)) (Seq (Eval ["mpsci.distributions.f._validate_params"]) (Seq (Eval []) (Return))));
  (** mpsci/distributions/f.py:135-148 *)
  ("mpsci.distributions.f.mean", With (ExtraDps (Num 5)) (Seq (Eval ["mpsci.distributions.f._validate_params"]) (Seq (Seq (Eval []) (If (Seq (Eval []) (Return)) (Skip))) (Seq (Eval []) (Return)))));
  (** mpsci/distributions/f.py:151-163 *)
  ("mpsci.distributions.f.mode", With (ExtraDps (Num 5)) (Seq (Eval ["mpsci.distributions.f._validate_params"]) (Seq (Seq (Eval []) (If (Seq (Eval []) (Return)) (Skip))) (Seq (Eval []) (Return)))));
  (** mpsci/distributions/f.py:166-180 *)
  ("mpsci.distributions.f.var", With (ExtraDps (Num 5)) (Seq (Eval ["mpsci.distributions.f._validate_params"]) (Seq (Seq (Eval []) (If (Seq (Eval []) (Return)) (Skip))) (Seq (Eval []) (Return)))));
  (** mpsci/distributions/f.py:183-199 *)
  ("mpsci.distributions.f.entropy", With (ExtraDps (Num 5)) (Seq (Eval ["mpsci.distributions.f._validate_params"]) (Seq (Eval []) (Seq (Eval []) (Seq (Eval []) (Seq (Eval ["mpsci.fun._logbeta.logbeta"]) (Return)))))));
  (** mpsci/distributions/f.py:1-200 *)
  ("mpsci.distributions.f.<module>", Eval []);
  (** mpsci/distributions/fishers_noncentral_hypergeometric.py:18-30 *)
  ("mpsci.distributions.fishers_noncentral_hypergeometric.support", Seq (Eval ["mpsci.distributions.hypergeometric.support"]) (Return));
  (** mpsci/distributions/fishers_noncentral_hypergeometric.py:35-70 *)
  ("mpsci.distributions.fishers_noncentral_hypergeometric._support_pmf", With (ExtraDps (Num 5)) (Seq (Eval ["mpsci.distributions.hypergeometric.support"]) (Seq (Eval ["mpsci.distributions.hypergeometric.logpmf"]) (Seq (Eval []) (Seq (Eval []) (Seq (Eval []) (Seq (Eval []) (Seq (Eval []) (Seq (Eval []) (Return))))))))));
  (** mpsci/distributions/fishers_noncentral_hypergeometric.py:73-120 *)
  ("mpsci.distributions.fishers_noncentral_hypergeometric.support_pmf", Seq (Eval ["mpsci.distributions.hypergeometric._validate"]) (Seq (Eval []) (Seq (Eval ["mpsci.distributions.fishers_noncentral_hypergeometric._support_pmf"]) (Seq (Eval []) (Return)))));
  (** mpsci/distributions/fishers_noncentral_hypergeometric.py:159-168 *)
  ("mpsci.distributions.fishers_noncentral_hypergeometric.pmf", Seq (Eval ["mpsci.distributions.hypergeometric._validate"]) (Seq (Eval ["mpsci.distributions.fishers_noncentral_hypergeometric.support_pmf"]) (Seq (Eval []) (If (Seq (Eval []) (Return)) (Seq (Eval []) (Return))))));
  (** mpsci/distributions/fishers_noncentral_hypergeometric.py:171-182 *)
  ("mpsci.distributions.fishers_noncentral_hypergeometric.cdf", Seq (Eval ["mpsci.distributions.hypergeometric._validate"]) (Seq (Eval ["mpsci.distributions.fishers_noncentral_hypergeometric.support_pmf"]) (Seq (Eval []) (If (Seq (Eval []) (Return)) (Seq (Eval []) (If (Seq (Eval []) (Return)) (Seq (Eval []) (Return))))))));
  (** mpsci/distributions/fishers_noncentral_hypergeometric.py:185-196 *)
  ("mpsci.distributions.fishers_noncentral_hypergeometric.sf", Seq (Eval ["mpsci.distributions.hypergeometric._validate"]) (Seq (Eval ["mpsci.distributions.fishers_noncentral_hypergeometric.support_pmf"]) (Seq (Eval []) (If (Seq (Eval []) (Return)) (Seq (Eval []) (If (Seq (Eval []) (Return)) (Seq (Eval []) (Return))))))));
  (** mpsci/distributions/fishers_noncentral_hypergeometric.py:199-243 *)
  ("mpsci.distributions.fishers_noncentral_hypergeometric.mode", With (ExtraDps (Num 5)) (Seq (Eval ["mpsci.distributions.hypergeometric._validate"]) (Seq (Eval []) (Seq (Eval []) (Seq (Eval []) (Seq (Eval []) (Seq (Eval []) (Seq (Eval []) (Return)))))))));
  (** mpsci/distributions/fishers_noncentral_hypergeometric.py:246-270 *)
  ("mpsci.distributions.fishers_noncentral_hypergeometric.mean", With (ExtraDps (Num 5)) (Seq (Eval ["mpsci.distributions.hypergeometric._validate"]) (Seq (Eval ["mpsci.distributions.fishers_noncentral_hypergeometric.support_pmf"]) (Seq (Eval []) (Seq (Eval []) (Return))))));
  (** mpsci/distributions/fishers_noncentral_hypergeometric.py:1-271 *)
  ("mpsci.distributions.fishers_noncentral_hypergeometric.<module>", Seq (Eval []) (Seq (Eval []) (Seq (Eval []) (Seq (Eval []) (Eval [])))));
  (** mpsci/distributions/folded_normal.py:29-32 *)
  ("mpsci.distributions.folded_normal._validate_sigma", Seq (Seq (Eval []) (If (Seq (Eval []) (Raise)) (Skip))) (Seq (Eval []) (Return)));
  (** mpsci/distributions/folded_normal.py:35-45 *)
  ("mpsci.distributions.folded_normal.pdf", With (ExtraDps (Num 5)) (Seq (Eval []) (Seq (Eval []) (Seq (Eval ["mpsci.distributions.folded_normal._validate_sigma"]) (Seq (Seq (Eval []) (If (Seq (Eval []) (Return)) (Skip))) (Seq (Eval []) (Return)))))));
  (** mpsci/distributions/folded_normal.py:48-60 *)
  ("mpsci.distributions.folded_normal.logpdf", With (ExtraDps (Num 5)) (Seq (Eval []) (Seq (Eval []) (Seq (Eval ["mpsci.distributions.folded_normal._validate_sigma"]) (Seq (Seq (Eval []) (If (Seq (Eval []) (Return)) (Skip))) (Seq (Eval ["mpsci.distributions.normal.logpdf"]) (Seq (Eval ["mpsci.distributions.normal.logpdf"]) (Seq (Eval ["mpsci.fun._logsumexp.logsumexp"]) (Return)))))))));
  (** mpsci/distributions/folded_normal.py:63-73 *)
  ("mpsci.distributions.folded_normal.cdf", With (ExtraDps (Num 5)) (Seq (Eval []) (Seq (Eval []) (Seq (Eval ["mpsci.distributions.folded_normal._validate_sigma"]) (Seq (Seq (Eval []) (If (Seq (Eval []) (Return)) (Skip))) (Seq (Eval []) (Return)))))));
  (** mpsci/distributions/folded_normal.py:76-86 *)
  ("mpsci.distributions.folded_normal.sf", With (ExtraDps (Num 5)) (Seq (Eval []) (Seq (Eval []) (Seq (Eval ["mpsci.distributions.folded_normal._validate_sigma"]) (Seq (Seq (Eval []) (If (Seq (Eval []) (Return)) (Skip))) (Seq (Eval []) (Return)))))));
  (** mpsci/distributions/folded_normal.py:89-95 *)
  ("mpsci.distributions.folded_normal.support", Seq (Eval []) (Seq (Eval ["mpsci.distributions.folded_normal._validate_sigma"]) (Seq (Eval []) (Return))));
  (** mpsci/distributions/folded_normal.py:98-107 *)
  ("mpsci.distributions.folded_normal.mean", With (ExtraDps (Num 5)) (Seq (Eval []) (Seq (Eval ["mpsci.distributions.folded_normal._validate_sigma"]) (Seq (Eval []) (Seq (Eval []) (Seq (Eval []) (Return)))))));
  (** mpsci/distributions/folded_normal.py:110-111 *)
  ("mpsci.distributions.folded_normal._mode_eq", Seq (Eval []) (Return));
  (** mpsci/distributions/folded_normal.py:114-118 *)
  ("mpsci.distributions.folded_normal._mode_getstart", Seq (Eval []) (Seq (Seq (Eval ["mpsci.distributions.folded_normal._mode_eq"]) (Loop (Seq (Eval []) (Eval ["mpsci.distributions.folded_normal._mode_eq"])))) (Seq (Eval []) (Return))));
  (** mpsci/distributions/folded_normal.py:138-138 *)
  ("mpsci.distributions.folded_normal.mode.<lambda>@138", Eval []);
  (** mpsci/distributions/folded_normal.py:121-139 *)
  ("mpsci.distributions.folded_normal.mode", With (ExtraDps (Num 5)) (Seq (Eval []) (Seq (Eval ["mpsci.distributions.folded_normal._validate_sigma"]) (Seq (Seq (Eval []) (If (Seq (Eval []) (Return)) (Skip))) (Seq (Eval []) (Seq (Seq (Eval []) (If (Eval ["mpsci.distributions.folded_normal._mode_getstart"]) (Eval []))) (Seq (Eval ["?"; "mpsci.distributions.folded_normal.mode.<lambda>@138"]) (Seq (Eval []) (Return)))))))));
  (** mpsci/distributions/folded_normal.py:142-149 *)
  ("mpsci.distributions.folded_normal.var", With (ExtraDps (Num 5)) (Seq (Eval []) (Seq (Eval ["mpsci.distributions.folded_normal._validate_sigma"]) (Seq (Eval ["mpsci.distributions.folded_normal.mean"]) (Return)))));
  (** mpsci/distributions/folded_normal.py:1-150 *)
  ("mpsci.distributions.folded_normal.<module>", Eval []);
  (** mpsci/distributions/gamma.py:29-34 *)
  ("mpsci.distributions.gamma._validate_k_scale", Seq (Seq (Eval []) (If (Seq (Eval []) (Raise)) (Skip))) (Seq (Seq (Eval []) (If (Seq (Eval []) (Raise)) (Skip))) (Seq (Eval []) (Return))));
  (** mpsci/distributions/gamma.py:37-51 *)
  ("mpsci.distributions.gamma.pdf", With (ExtraDps (Num 5)) (Seq (Eval ["mpsci.distributions.gamma._validate_k_scale"]) (Seq (Eval []) (Seq (Seq (Eval []) (If (Seq (Eval []) (Return)) (Skip))) (Seq (Eval []) (Return))))));
  (** mpsci/distributions/gamma.py:54-64 *)
  ("mpsci.distributions.gamma.logpdf", With (ExtraDps (Num 5)) (Seq (Eval ["mpsci.distributions.gamma._validate_k_scale"]) (Seq (Eval []) (Seq (Seq (Eval []) (If (Seq (Eval []) (Return)) (Skip))) (Seq (Eval []) (Return))))));
  (** mpsci/distributions/gamma.py:67-81 *)
  ("mpsci.distributions.gamma.cdf", With (ExtraDps (Num 5)) (Seq (Eval ["mpsci.distributions.gamma._validate_k_scale"]) (Seq (Eval []) (Seq (Seq (Eval []) (If (Seq (Eval []) (Return)) (Skip))) (Seq (Eval []) (Return))))));
  (** mpsci/distributions/gamma.py:96-96 *)
  ("mpsci.distributions.gamma.invcdf.<lambda>@96", Eval ["mpsci.distributions.gamma.cdf"]);
  (** mpsci/distributions/gamma.py:100-100 *)
  ("mpsci.distributions.gamma.invcdf.<lambda>@100", Eval ["mpsci.distributions.gamma.cdf"]);
  (** mpsci/distributions/gamma.py:84-102 *)
  ("mpsci.distributions.gamma.invcdf", With (ExtraDps (Max (Num 10) Dps)) (Seq (Eval ["mpsci.distributions.gamma._validate_k_scale"]) (Seq (Eval ["mpsci.distributions._common._validate_p"]) (Seq (Seq (Eval []) (If (Seq (Eval []) (Return)) (Skip))) (Seq (Seq (Eval []) (If (Seq (Eval []) (Return)) (Skip))) (Seq (Eval ["mpsci.distributions._common._find_bracket"; "mpsci.distributions.gamma.invcdf.<lambda>@96"]) (Seq (Seq (Eval []) (If (Seq (Eval []) (Return)) (Skip))) (Seq (Eval ["?"; "mpsci.distributions.gamma.invcdf.<lambda>@100"]) (Seq (Eval []) (Return))))))))))
].
Definition table6 : program := [
  (** mpsci/distributions/gamma.py:105-114 *)
  ("mpsci.distributions.gamma.sf", With (ExtraDps (Num 5)) (Seq (Eval ["mpsci.distributions.gamma._validate_k_scale"]) (Seq (Eval []) (Seq (Seq (Eval []) (If (Seq (Eval []) (Return)) (Skip))) (Seq (Eval []) (Return))))));
  (** mpsci/distributions/gamma.py:129-129 *)
  ("mpsci.distributions.gamma.invsf.<lambda>@129", Eval ["mpsci.distributions.gamma.sf"]);
  (** mpsci/distributions/gamma.py:133-133 *)
  ("mpsci.distributions.gamma.invsf.<lambda>@133", Eval ["mpsci.distributions.gamma.sf"]);
  (** mpsci/distributions/gamma.py:117-135 *)
  ("mpsci.distributions.gamma.invsf", With (ExtraDps (Max (Num 10) Dps)) (Seq (Eval ["mpsci.distributions.gamma._validate_k_scale"]) (Seq (Eval ["mpsci.distributions._common._validate_p"]) (Seq (Seq (Eval []) (If (Seq (Eval []) (Return)) (Skip))) (Seq (Seq (Eval []) (If (Seq (Eval []) (Return)) (Skip))) (Seq (Eval ["mpsci.distributions._common._find_bracket"; "mpsci.distributions.gamma.invsf.<lambda>@129"]) (Seq (Seq (Eval []) (If (Seq (Eval []) (Return)) (Skip))) (Seq (Eval ["?"; "mpsci.distributions.gamma.invsf.<lambda>@133"]) (Seq (Eval []) (Return))))))))));
  (** mpsci/distributions/gamma.py:138-157 *)
  ("mpsci.distributions.gamma.interval_prob", With (ExtraDps (Num 5)) (Seq (Eval ["mpsci.distributions.gamma._validate_k_scale"]) (Seq (Eval []) (Seq (Eval []) (Seq (Seq (Eval []) (If (Seq (Eval []) (Raise)) (Skip))) (Seq (Eval []) (Return)))))));
  (** mpsci/distributions/gamma.py:160-166 *)
  ("mpsci.distributions.gamma.support", With (ExtraDps (Num 5)) (Seq (Eval ["mpsci.distributions.gamma._validate_k_scale"]) (Seq (Eval []) (Return))));
  (** mpsci/distributions/gamma.py:169-175 *)
  ("mpsci.distributions.gamma.mean", With (ExtraDps (Num 5)) (Seq (Eval ["mpsci.distributions.gamma._validate_k_scale"]) (Seq (Eval []) (Return))));
  (** mpsci/distributions/gamma.py:178-186 *)
  ("mpsci.distributions.gamma.mode", With (ExtraDps (Num 5)) (Seq (Eval ["mpsci.distributions.gamma._validate_k_scale"]) (Seq (Seq (Eval []) (If (Seq (Eval []) (Return)) (Skip))) (Seq (Eval []) (Return)))));
  (** mpsci/distributions/gamma.py:189-195 *)
  ("mpsci.distributions.gamma.var", With (ExtraDps (Num 5)) (Seq (Eval ["mpsci.distributions.gamma._validate_k_scale"]) (Seq (Eval []) (Return))));
  (** mpsci/distributions/gamma.py:198-204 *)
  ("mpsci.distributions.gamma.skewness", With (ExtraDps (Num 5)) (Seq (Eval ["mpsci.distributions.gamma._validate_k_scale"]) (Seq (Eval []) (Return))));
  (** mpsci/distributions/gamma.py:207-213 *)
  ("mpsci.distributions.gamma.kurtosis", With (ExtraDps (Num 5)) (Seq (Eval ["mpsci.distributions.gamma._validate_k_scale"]) (Seq (Eval []) (Return))));
  (** mpsci/distributions/gamma.py:216-227 *)
  ("mpsci.distributions.gamma.noncentral_moment", With (ExtraDps (Num 5)) (Seq (Eval ["mpsci.distributions._common._validate_moment_n"]) (Seq (Eval ["mpsci.distributions.gamma._validate_k_scale"]) (Seq (Seq (Eval []) (If (Seq (Eval []) (Return)) (Skip))) (Seq (Eval []) (Return))))));
  (** mpsci/distributions/gamma.py:230-236 *)
  ("mpsci.distributions.gamma.entropy", With (ExtraDps (Num 5)) (Seq (Eval ["mpsci.distributions.gamma._validate_k_scale"]) (Seq (Eval []) (Return))));
  (** mpsci/distributions/gamma.py:239-250 *)
  ("mpsci.distributions.gamma.mom", With (ExtraDps (Num 5)) (Seq (Eval ["mpsci.stats._basic.mean"]) (Seq (Eval ["mpsci.stats._basic.var"]) (Seq (Eval []) (Return)))));
  (** mpsci/distributions/gamma.py:253-297 *)
  ("mpsci.distributions.gamma.mle", Seq (Eval []) (Seq (Eval []) (Seq (Seq (Eval []) (If (Seq (Eval []) (If (Seq (Eval []) (Seq (Eval []) (Seq (Seq (Eval []) (Loop (Seq (Eval []) (Seq (Eval []) (Seq (Eval []) (Seq (Eval []) (If (Break) (Skip)))))))) (Eval [])))) (Seq (Eval []) (Seq (Eval ["mpsci.fun._digammainv.digammainv"]) (Eval []))))) (Seq (Eval []) (If (Seq (Eval []) (Eval [])) (Seq (Eval []) (Eval [])))))) (Seq (Eval []) (Return)))));
  (** mpsci/distributions/gamma.py:300-314 *)
  ("mpsci.distributions.gamma.nll", With (ExtraDps (Num 5)) (Seq (Eval ["mpsci.distributions.gamma._validate_k_scale"]) (Seq (Eval ["mpsci.distributions._common._validate_x_bounds"]) (Seq (Eval []) (Seq (Eval []) (Seq (Eval []) (Seq (Eval []) (Seq (Eval []) (Return)))))))));
  (** mpsci/distributions/gamma.py:317-330 *)
  ("mpsci.distributions.gamma.nll_grad", With (ExtraDps (Num 5)) (Seq (Eval ["mpsci.distributions.gamma._validate_k_scale"]) (Seq (Eval []) (Seq (Eval []) (Seq (Eval []) (Seq (Eval []) (Seq (Eval []) (Seq (Eval []) (Return)))))))));
  (** mpsci/distributions/gamma.py:333-348 *)
  ("mpsci.distributions.gamma.nll_hess", With (ExtraDps (Num 5)) (Seq (Eval ["mpsci.distributions.gamma._validate_k_scale"]) (Seq (Eval []) (Seq (Eval []) (Seq (Eval []) (Seq (Eval []) (Seq (Eval []) (Seq (Eval []) (Return)))))))));
  (** mpsci/distributions/gamma.py:351-369 *)
  ("mpsci.distributions.gamma.nll_invhess", With (ExtraDps (Num 5)) (Seq (Eval ["mpsci.distributions.gamma._validate_k_scale"]) (Seq (Eval []) (Seq (Eval []) (Seq (Eval []) (Seq (Eval []) (Seq (Eval []) (Seq (Eval []) (Seq (Eval []) (Return))))))))));
  (** mpsci/distributions/gamma.py:376-385 *)
  ("mpsci.distributions.gamma._mle_se", With (ExtraDps (Num 5)) (Seq (Eval ["mpsci.distributions.gamma._validate_k_scale"]) (Seq (Eval ["mpsci.distributions.gamma._nll_invhess_diag"]) (Seq (Eval []) (Return)))));
  (** mpsci/distributions/gamma.py:388-401 *)
  ("mpsci.distributions.gamma._mle_ci", With (ExtraDps (Num 5)) (Seq (Eval ["mpsci.distributions.gamma._validate_k_scale"]) (Seq (Eval ["mpsci.distributions.gamma._mle_se"]) (Seq (Eval ["mpsci.distributions.normal.invcdf"]) (Seq (Eval []) (Return))))));
  (** mpsci/distributions/gamma.py:404-422 *)
  ("mpsci.distributions.gamma._nll_invhess_diag", With (ExtraDps (Num 5)) (Seq (Eval ["mpsci.distributions.gamma._validate_k_scale"]) (Seq (Eval []) (Seq (Eval []) (Seq (Eval []) (Seq (Eval []) (Seq (Eval []) (Seq (Eval []) (Seq (Eval []) (Return))))))))));
  (** mpsci/distributions/gamma.py:1-423 *)
  ("mpsci.distributions.gamma.<module>", Eval []);
  (** mpsci/distributions/gamma_gompertz.py:28-35 *)
  ("mpsci.distributions.gamma_gompertz._validate_params", Seq (Seq (Eval []) (If (Seq (Eval []) (Raise)) (Skip))) (Seq (Seq (Eval []) (If (Seq (Eval []) (Raise)) (Skip))) (Seq (Seq (Eval []) (If (Seq (Eval []) (Raise)) (Skip))) (Seq (Eval []) (Return)))));
  (** mpsci/distributions/gamma_gompertz.py:38-50 *)
  ("mpsci.distributions.gamma_gompertz.pdf", With (ExtraDps (Num 5)) (Seq (Eval ["mpsci.distributions.gamma_gompertz._validate_params"]) (Seq (Eval []) (Seq (Seq (Eval []) (If (Seq (Eval []) (Return)) (Skip))) (Seq (Eval []) (Seq (Eval []) (Seq (Eval []) (Seq (Eval []) (Return)))))))));
  (** mpsci/distributions/gamma_gompertz.py:53-64 *)
  ("mpsci.distributions.gamma_gompertz.logpdf", With (ExtraDps (Num 5)) (Seq (Eval ["mpsci.distributions.gamma_gompertz._validate_params"]) (Seq (Eval []) (Seq (Seq (Eval []) (If (Seq (Eval []) (Return)) (Skip))) (Seq (Eval []) (Seq (Eval []) (Return)))))));
  (** mpsci/distributions/gamma_gompertz.py:67-79 *)
  ("mpsci.distributions.gamma_gompertz.cdf", With (ExtraDps (Num 5)) (Seq (Eval ["mpsci.distributions.gamma_gompertz._validate_params"]) (Seq (Eval []) (Seq (Seq (Eval []) (If (Seq (Eval []) (Return)) (Skip))) (Seq (Eval []) (Seq (Seq (Eval []) (If (Seq (Eval []) (Return)) (Skip))) (Seq (Eval []) (Return))))))));
  (** mpsci/distributions/gamma_gompertz.py:82-90 *)
  ("mpsci.distributions.gamma_gompertz.invcdf", With (ExtraDps (Num 5)) (Seq (Eval ["mpsci.distributions.gamma_gompertz._validate_params"]) (Seq (Eval ["mpsci.distributions._common._validate_p"]) (Seq (Eval ["mpsci.fun._powm1.pow1pm1"]) (Seq (Eval []) (Return))))));
  (** mpsci/distributions/gamma_gompertz.py:93-106 *)
  ("mpsci.distributions.gamma_gompertz.sf", With (ExtraDps (Num 5)) (Seq (Eval ["mpsci.distributions.gamma_gompertz._validate_params"]) (Seq (Eval []) (Seq (Seq (Eval []) (If (Seq (Eval []) (Return)) (Skip))) (Seq (Eval []) (Seq (Seq (Eval []) (If (Seq (Eval []) (Return)) (Skip))) (Seq (Eval []) (Seq (Eval []) (Return)))))))));
  (** mpsci/distributions/gamma_gompertz.py:109-118 *)
  ("mpsci.distributions.gamma_gompertz.invsf", With (ExtraDps (Num 5)) (Seq (Eval ["mpsci.distributions.gamma_gompertz._validate_params"]) (Seq (Eval ["mpsci.distributions._common._validate_p"]) (Seq (Eval []) (Seq (Eval []) (Seq (Eval []) (Return)))))));
  (** mpsci/distributions/gamma_gompertz.py:121-127 *)
  ("mpsci.distributions.gamma_gompertz.support", With (ExtraDps (Num 5)) (Seq (Eval ["mpsci.distributions.gamma_gompertz._validate_params"]) (Seq (Eval []) (Return))));
  (** mpsci/distributions/gamma_gompertz.py:130-140 *)
  ("mpsci.distributions.gamma_gompertz.mean", With (ExtraDps (Num 5)) (Seq (Eval ["mpsci.distributions.gamma_gompertz._validate_params"]) (Seq (Seq (Eval []) (If (Seq (Eval []) (Return)) (Skip))) (Seq (Seq (Eval []) (If (Seq (Eval []) (Return)) (Skip))) (Seq (Eval []) (Return))))));
  (** mpsci/distributions/gamma_gompertz.py:143-153 *)
  ("mpsci.distributions.gamma_gompertz.mode", With (ExtraDps (Num 5)) (Seq (Eval ["mpsci.distributions.gamma_gompertz._validate_params"]) (Seq (Seq (Eval []) (If (Seq (Eval []) (Return)) (Skip))) (Seq (Eval []) (Return)))));
  (** mpsci/distributions/gamma_gompertz.py:1-154 *)
  ("mpsci.distributions.gamma_gompertz.<module>", Eval []);
  (** mpsci/distributions/gauss_kuzmin.py:23-40 *)
  ("mpsci.distributions.gauss_kuzmin.support", Seq (Eval []) (Return));
  (** mpsci/distributions/gauss_kuzmin.py:43-54 *)
  ("mpsci.distributions.gauss_kuzmin.pmf", With (ExtraDps (Num 5)) (Seq (Seq (Eval []) (If (Seq (Eval []) (Return)) (Skip))) (Seq (Eval []) (Seq (Eval []) (Seq (Eval []) (Return))))));
  (** mpsci/distributions/gauss_kuzmin.py:57-67 *)
  ("mpsci.distributions.gauss_kuzmin.logpmf", With (ExtraDps (Num 5)) (Seq (Seq (Eval []) (If (Seq (Eval []) (Return)) (Skip))) (Seq (Eval []) (Seq (Eval ["mpsci.distributions.gauss_kuzmin.pmf"]) (Return)))));
  (** mpsci/distributions/gauss_kuzmin.py:70-83 *)
  ("mpsci.distributions.gauss_kuzmin.cdf", With (ExtraDps (Num 5)) (Seq (Seq (Eval []) (If (Seq (Eval []) (Return)) (Skip))) (Seq (Eval []) (Seq (Seq (Eval []) (If (Seq (Eval []) (Return)) (Skip))) (Seq (Eval []) (Seq (Eval []) (Return)))))));
  (** mpsci/distributions/gauss_kuzmin.py:86-98 *)
  ("mpsci.distributions.gauss_kuzmin.invcdf", With (ExtraDps (Num 5)) (Seq (Eval ["mpsci.distributions._common._validate_p"]) (Seq (Seq (Eval []) (If (Seq (Eval []) (Return)) (Skip))) (Seq (Eval []) (Seq (Eval []) (Return))))));
  (** mpsci/distributions/gauss_kuzmin.py:101-112 *)
  ("mpsci.distributions.gauss_kuzmin.sf", With (ExtraDps (Num 5)) (Seq (Seq (Eval []) (If (Seq (Eval []) (Return)) (Skip))) (Seq (Eval []) (Seq (Eval []) (Seq (Eval []) (Return))))));
  (** mpsci/distributions/gauss_kuzmin.py:115-127 *)
  ("mpsci.distributions.gauss_kuzmin.invsf", With (ExtraDps (Num 5)) (Seq (Eval ["mpsci.distributions._common._validate_p"]) (Seq (Seq (Eval []) (If (Seq (Eval []) (Return)) (Skip))) (Seq (Eval []) (Seq (Eval []) (Return))))));
  (** mpsci/distributions/gauss_kuzmin.py:130-134 *)
  ("mpsci.distributions.gauss_kuzmin.mode", Seq (Eval []) (Return));
  (** mpsci/distributions/gauss_kuzmin.py:137-141 *)
  ("mpsci.distributions.gauss_kuzmin.median", Seq (Eval []) (Return));
  (** mpsci/distributions/gauss_kuzmin.py:144-148 *)
  ("mpsci.distributions.gauss_kuzmin.mean", Seq (Eval []) (Return));
  (** mpsci/distributions/gauss_kuzmin.py:151-155 *)
  ("mpsci.distributions.gauss_kuzmin.var", Seq (Eval []) (Return));
  (** mpsci/distributions/gauss_kuzmin.py:1-156 *)
  ("mpsci.distributions.gauss_kuzmin.<module>", Eval []);
  (** mpsci/distributions/genexpon.py:16-25 *)
  ("mpsci.distributions.genexpon._validate_params", Seq (Seq (Eval []) (If (Seq (Eval []) (Raise)) (Skip))) (Seq (Seq (Eval []) (If (Seq (Eval []) (Raise)) (Skip))) (Seq (Seq (Eval []) (If (Seq (Eval []) (Raise)) (Skip))) (Seq (Seq (Eval []) (If (Seq (Eval []) (Raise)) (Skip))) (Seq (Eval []) (Return))))));
  (** mpsci/distributions/genexpon.py:28-33 *)
  ("mpsci.distributions.genexpon._validate_x_params", Seq (Eval []) (Seq (Eval ["mpsci.distributions.genexpon._validate_params"]) (Seq (Seq (Eval []) (If (Seq (Eval []) (Raise)) (Skip))) (Seq (Eval []) (Return)))));
  (** mpsci/distributions/genexpon.py:36-46 *)
  ("mpsci.distributions.genexpon.pdf", With (ExtraDps (Num 5)) (Seq (Eval ["mpsci.distributions.genexpon._validate_x_params"]) (Seq (Eval []) (Seq (Eval []) (Seq (Eval []) (Seq (Eval []) (Return)))))));
  (** mpsci/distributions/genexpon.py:49-58 *)
  ("mpsci.distributions.genexpon.logpdf", With (ExtraDps (Num 5)) (Seq (Eval ["mpsci.distributions.genexpon._validate_x_params"]) (Seq (Eval []) (Seq (Eval []) (Seq (Eval []) (Seq (Eval []) (Return)))))));
  (** mpsci/distributions/genexpon.py:61-70 *)
  ("mpsci.distributions.genexpon.cdf", With (ExtraDps (Num 5)) (Seq (Eval ["mpsci.distributions.genexpon._validate_x_params"]) (Seq (Eval []) (Seq (Eval []) (Seq (Eval []) (Seq (Eval []) (Return)))))));
  (** mpsci/distributions/genexpon.py:73-82 *)
  ("mpsci.distributions.genexpon.sf", With (ExtraDps (Num 5)) (Seq (Eval ["mpsci.distributions.genexpon._validate_x_params"]) (Seq (Eval []) (Seq (Eval []) (Seq (Eval []) (Seq (Eval []) (Return)))))));
  (** mpsci/distributions/genexpon.py:85-97 *)
  ("mpsci.distributions.genexpon.invcdf", With (ExtraDps (Num 5)) (Seq (Eval ["mpsci.distributions._common._validate_p"]) (Seq (Eval ["mpsci.distributions.genexpon._validate_params"]) (Seq (Eval []) (Seq (Eval []) (Seq (Eval []) (Seq (Eval []) (Return))))))));
  (** mpsci/distributions/genexpon.py:100-110 *)
  ("mpsci.distributions.genexpon.invsf", With (ExtraDps (Num 5)) (Seq (Eval ["mpsci.distributions._common._validate_p"]) (Seq (Eval ["mpsci.distributions.genexpon._validate_params"]) (Seq (Eval []) (Seq (Eval []) (Seq (Eval []) (Seq (Eval []) (Return))))))));
  (** mpsci/distributions/genexpon.py:113-118 *)
  ("mpsci.distributions.genexpon.support", Seq (Eval ["mpsci.distributions.genexpon._validate_params"]) (Seq (Eval []) (Return)));
  (** mpsci/distributions/genexpon.py:1-119 *)
  ("mpsci.distributions.genexpon.<module>", Eval []);
  (** mpsci/distributions/genextreme.py:27-30 *)
  ("mpsci.distributions.genextreme._validate_params", Seq (Seq (Eval []) (If (Seq (Eval []) (Raise)) (Skip))) (Seq (Eval []) (Return)));
  (** mpsci/distributions/genextreme.py:33-55 *)
  ("mpsci.distributions.genextreme.pdf", With (ExtraDps (Num 5)) (Seq (Eval ["mpsci.distributions.genextreme._validate_params"]) (Seq (Seq (Eval []) (If (Seq (Eval []) (Seq (Seq (Eval []) (If (Seq (Eval []) (Return)) (Skip))) (Seq (Eval []) (If (Seq (Eval []) (Return)) (Skip))))) (Skip))) (Seq (Eval []) (Seq (Seq (Eval []) (If (Eval []) (Eval []))) (Seq (Eval []) (Seq (Eval []) (Return))))))));
  (** mpsci/distributions/genextreme.py:58-82 *)
  ("mpsci.distributions.genextreme.logpdf", With (ExtraDps (Num 5)) (Seq (Eval ["mpsci.distributions.genextreme._validate_params"]) (Seq (Seq (Eval []) (If (Seq (Eval []) (Seq (Seq (Eval []) (If (Seq (Eval []) (Return)) (Skip))) (Seq (Eval []) (If (Seq (Eval []) (Return)) (Skip))))) (Skip))) (Seq (Eval []) (Seq (Seq (Eval []) (If (Seq (Eval []) (Eval [])) (Seq (Eval []) (Eval [])))) (Seq (Eval []) (Seq (Eval []) (Return))))))));
  (** mpsci/distributions/genextreme.py:85-90 *)
  ("mpsci.distributions.genextreme.cdf", With (ExtraDps (Num 5)) (Seq (Eval ["mpsci.distributions.genextreme.logcdf"]) (Return)))
].
Definition table7 : program := [
  (** mpsci/distributions/genextreme.py:93-111 *)
  ("mpsci.distributions.genextreme.logcdf", With (ExtraDps (Num 5)) (Seq (Eval ["mpsci.distributions.genextreme._validate_params"]) (Seq (Seq (Eval []) (If (Seq (Eval []) (Seq (Seq (Eval []) (If (Seq (Eval []) (Return)) (Skip))) (Seq (Eval []) (If (Seq (Eval []) (Return)) (Skip))))) (Skip))) (Seq (Seq (Eval []) (If (Eval []) (Eval []))) (Seq (Eval []) (Return))))));
  (** mpsci/distributions/genextreme.py:114-125 *)
  ("mpsci.distributions.genextreme.invcdf", With (ExtraDps (Num 5)) (Seq (Eval ["mpsci.distributions._common._validate_p"]) (Seq (Eval ["mpsci.distributions.genextreme._validate_params"]) (Seq (Seq (Eval []) (If (Eval []) (Eval []))) (Seq (Eval []) (Return))))));
  (** mpsci/distributions/genextreme.py:128-133 *)
  ("mpsci.distributions.genextreme.sf", With (ExtraDps (Num 5)) (Seq (Eval ["mpsci.distributions.genextreme.logcdf"]) (Return)));
  (** mpsci/distributions/genextreme.py:136-147 *)
  ("mpsci.distributions.genextreme.logsf", With (ExtraDps (Num 5)) (Seq (Eval ["mpsci.distributions.genextreme.invcdf"]) (Seq (Eval []) (If (Seq (Eval ["mpsci.distributions.genextreme.sf"]) (Return)) (Seq (Eval ["mpsci.distributions.genextreme.cdf"]) (Return))))));
  (** mpsci/distributions/genextreme.py:150-161 *)
  ("mpsci.distributions.genextreme.invsf", With (ExtraDps (Num 5)) (Seq (Eval ["mpsci.distributions._common._validate_p"]) (Seq (Eval ["mpsci.distributions.genextreme._validate_params"]) (Seq (Seq (Eval []) (If (Eval []) (Eval []))) (Seq (Eval []) (Return))))));
  (** mpsci/distributions/genextreme.py:164-184 *)
  ("mpsci.distributions.genextreme.support", With (ExtraDps (Num 5)) (Seq (Eval ["mpsci.distributions.genextreme._validate_params"]) (Seq (Seq (Eval []) (If (Seq (Eval []) (Seq (Eval []) (If (Seq (Eval []) (Return)) (Seq (Eval []) (Return))))) (Skip))) (Seq (Eval []) (Return)))));
  (** mpsci/distributions/genextreme.py:187-199 *)
  ("mpsci.distributions.genextreme.mean", With (ExtraDps (Num 5)) (Seq (Eval ["mpsci.distributions.genextreme._validate_params"]) (Seq (Eval []) (If (Seq (Eval []) (Return)) (Seq (Eval []) (If (Seq (Eval []) (Seq (Eval []) (Return))) (Seq (Eval []) (Return))))))));
  (** mpsci/distributions/genextreme.py:202-219 *)
  ("mpsci.distributions.genextreme.mode", With (ExtraDps (Num 5)) (Seq (Eval ["mpsci.distributions.genextreme._validate_params"]) (Seq (Seq (Eval []) (If (Seq (Eval []) (Return)) (Skip))) (Seq (Seq (Eval []) (If (Seq (Eval []) (Return)) (Skip))) (Seq (Eval ["mpsci.fun._powm1.pow1pm1"]) (Return))))));
  (** mpsci/distributions/genextreme.py:222-235 *)
  ("mpsci.distributions.genextreme.var", With (ExtraDps (Num 5)) (Seq (Eval ["mpsci.distributions.genextreme._validate_params"]) (Seq (Eval []) (If (Seq (Eval []) (Return)) (Seq (Eval []) (If (Seq (Eval []) (Seq (Eval []) (Seq (Eval []) (Return)))) (Seq (Eval []) (Return))))))));
  (** mpsci/distributions/genextreme.py:238-254 *)
  ("mpsci.distributions.genextreme.skewness", With (ExtraDps (Num 5)) (Seq (Eval ["mpsci.distributions.genextreme._validate_params"]) (Seq (Eval []) (If (Seq (Eval []) (Return)) (Seq (Eval []) (If (Seq (Eval []) (Seq (Eval []) (Seq (Eval []) (Seq (Eval []) (Seq (Eval []) (Seq (Eval []) (Return))))))) (Seq (Eval []) (Return))))))));
  (** mpsci/distributions/genextreme.py:257-274 *)
  ("mpsci.distributions.genextreme.kurtosis", With (ExtraDps (Num 5)) (Seq (Eval ["mpsci.distributions.genextreme._validate_params"]) (Seq (Eval []) (If (Seq (Eval []) (Return)) (Seq (Eval []) (If (Seq (Eval []) (Seq (Eval []) (Seq (Eval []) (Seq (Eval []) (Seq (Eval []) (Seq (Eval []) (Seq (Eval []) (Return)))))))) (Seq (Eval []) (Return))))))));
  (** mpsci/distributions/genextreme.py:277-283 *)
  ("mpsci.distributions.genextreme.entropy", With (ExtraDps (Num 5)) (Seq (Eval ["mpsci.distributions.genextreme._validate_params"]) (Seq (Eval []) (Return))));
  (** mpsci/distributions/genextreme.py:286-295 *)
  ("mpsci.distributions.genextreme._standard_noncentral_moment", With (ExtraDps (Num 5)) (Seq (Seq (Eval []) (If (Seq (Eval []) (Return)) (Skip))) (Seq (Eval []) (If (Seq (Eval []) (Seq (Eval []) (Return))) (Seq (Eval []) (Return))))));
  (** mpsci/distributions/genextreme.py:298-318 *)
  ("mpsci.distributions.genextreme.noncentral_moment", With (ExtraDps (Num 5)) (Seq (Eval ["mpsci.distributions._common._validate_moment_n"]) (Seq (Eval ["mpsci.distributions.genextreme._validate_params"]) (Seq (Seq (Eval []) (If (Seq (Eval []) (Return)) (Skip))) (Seq (Seq (Eval []) (If (Seq (Eval []) (Return)) (Skip))) (Seq (Eval ["mpsci.distributions.genextreme._standard_noncentral_moment"]) (Seq (Eval []) (Return))))))));
  (** mpsci/distributions/genextreme.py:1-319 *)
  ("mpsci.distributions.genextreme.<module>", Eval []);
  (** mpsci/distributions/genhyperbolic.py:26-33 *)
  ("mpsci.distributions.genhyperbolic._validate_params", Seq (Eval ["mpsci.distributions._common._validate_loc_scale"]) (Seq (Seq (Eval []) (If (Seq (Eval []) (Raise)) (Skip))) (Seq (Seq (Eval []) (If (Seq (Eval []) (Raise)) (Skip))) (Seq (Eval []) (Return)))));
  (** mpsci/distributions/genhyperbolic.py:36-54 *)
  ("mpsci.distributions.genhyperbolic.logpdf", With (ExtraDps (Num 5)) (Seq (Eval ["mpsci.distributions.genhyperbolic._validate_params"]) (Seq (Eval []) (Seq (Eval []) (Seq (Eval []) (Seq (Eval []) (Seq (Eval []) (Seq (Eval []) (Return)))))))));
  (** mpsci/distributions/genhyperbolic.py:57-62 *)
  ("mpsci.distributions.genhyperbolic.pdf", With (ExtraDps (Num 5)) (Seq (Eval ["mpsci.distributions.genhyperbolic.logpdf"]) (Return)));
  (** mpsci/distributions/genhyperbolic.py:68-68 *)
  ("mpsci.distributions.genhyperbolic._integrate_pdf.<lambda>@68", Eval ["mpsci.distributions.genhyperbolic.pdf"]);
  (** mpsci/distributions/genhyperbolic.py:69-69 *)
  ("mpsci.distributions.genhyperbolic._integrate_pdf.<lambda>@69", Eval ["mpsci.distributions.genhyperbolic.pdf"]);
  (** mpsci/distributions/genhyperbolic.py:72-72 *)
  ("mpsci.distributions.genhyperbolic._integrate_pdf.<lambda>@72", Eval ["mpsci.distributions.genhyperbolic.pdf"]);
  (** mpsci/distributions/genhyperbolic.py:65-72 *)
  ("mpsci.distributions.genhyperbolic._integrate_pdf", Seq (Eval ["mpsci.distributions.genhyperbolic.mean"]) (Seq (Eval []) (If (Seq (Eval ["?"; "mpsci.distributions.genhyperbolic._integrate_pdf.<lambda>@68"]) (Seq (Eval ["?"; "mpsci.distributions.genhyperbolic._integrate_pdf.<lambda>@69"]) (Seq (Eval []) (Return)))) (Seq (Eval ["?"; "mpsci.distributions.genhyperbolic._integrate_pdf.<lambda>@72"]) (Return)))));
  (** mpsci/distributions/genhyperbolic.py:75-85 *)
  ("mpsci.distributions.genhyperbolic.cdf", With (ExtraDps (Num 5)) (Seq (Eval ["mpsci.distributions.genhyperbolic._validate_params"]) (Seq (Eval []) (Seq (Eval ["mpsci.distributions.genhyperbolic._integrate_pdf"]) (Return)))));
  (** mpsci/distributions/genhyperbolic.py:88-98 *)
  ("mpsci.distributions.genhyperbolic.sf", With (ExtraDps (Num 5)) (Seq (Eval ["mpsci.distributions.genhyperbolic._validate_params"]) (Seq (Eval []) (Seq (Eval ["mpsci.distributions.genhyperbolic._integrate_pdf"]) (Return)))));
  (** mpsci/distributions/genhyperbolic.py:101-107 *)
  ("mpsci.distributions.genhyperbolic.support", With (ExtraDps (Num 5)) (Seq (Eval ["mpsci.distributions.genhyperbolic._validate_params"]) (Seq (Eval []) (Return))));
  (** mpsci/distributions/genhyperbolic.py:110-118 *)
  ("mpsci.distributions.genhyperbolic.mean", With (ExtraDps (Num 5)) (Seq (Eval ["mpsci.distributions.genhyperbolic._validate_params"]) (Seq (Eval []) (Seq (Eval []) (Seq (Eval []) (Return))))));
  (** mpsci/distributions/genhyperbolic.py:121-132 *)
  ("mpsci.distributions.genhyperbolic.var", With (ExtraDps (Num 5)) (Seq (Eval ["mpsci.distributions.genhyperbolic._validate_params"]) (Seq (Eval []) (Seq (Eval []) (Seq (Eval []) (Seq (Eval []) (Seq (Eval []) (Seq (Eval []) (Return)))))))));
  (** mpsci/distributions/genhyperbolic.py:1-133 *)
  ("mpsci.distributions.genhyperbolic.<module>", Eval []);
  (** mpsci/distributions/geninvgauss.py:38-43 *)
  ("mpsci.distributions.geninvgauss._validate_params", Seq (Seq (Eval []) (If (Seq (Eval []) (Raise)) (Skip))) (Seq (Seq (Eval []) (If (Seq (Eval []) (Raise)) (Skip))) (Seq (Eval []) (Return))));
  (** mpsci/distributions/geninvgauss.py:71-94 *)
  ("mpsci.distributions.geninvgauss.pdf", With (ExtraDps (Num 5)) (Seq (Eval ["mpsci.distributions.geninvgauss._validate_params"]) (Seq (Eval []) (Seq (Seq (Eval []) (If (Seq (Eval []) (Return)) (Skip))) (Seq (Eval []) (Seq (Eval []) (Return)))))));
  (** mpsci/distributions/geninvgauss.py:100-123 *)
  ("mpsci.distributions.geninvgauss.logpdf", With (ExtraDps (Num 5)) (Seq (Eval ["mpsci.distributions.geninvgauss._validate_params"]) (Seq (Eval []) (Seq (Seq (Eval []) (If (Seq (Eval []) (Return)) (Skip))) (Seq (Eval []) (Seq (Eval []) (Return)))))));
  (** mpsci/distributions/geninvgauss.py:146-146 *)
  ("mpsci.distributions.geninvgauss.cdf.<lambda>@146", Eval ["mpsci.distributions.geninvgauss.pdf"]);
  (** mpsci/distributions/geninvgauss.py:148-148 *)
  ("mpsci.distributions.geninvgauss.cdf.<lambda>@148", Eval ["mpsci.distributions.geninvgauss.pdf"]);
  (** mpsci/distributions/geninvgauss.py:149-149 *)
  ("mpsci.distributions.geninvgauss.cdf.<lambda>@149", Eval ["mpsci.distributions.geninvgauss.pdf"]);
  (** mpsci/distributions/geninvgauss.py:129-151 *)
  ("mpsci.distributions.geninvgauss.cdf", With (ExtraDps (Num 5)) (Seq (Eval ["mpsci.distributions.geninvgauss._validate_params"]) (Seq (Eval []) (Seq (Seq (Eval []) (If (Seq (Eval []) (Return)) (Skip))) (Seq (Eval ["mpsci.distributions.geninvgauss.mode"]) (Seq (Seq (Eval []) (If (Eval ["?"; "mpsci.distributions.geninvgauss.cdf.<lambda>@146"]) (Eval ["?"; "mpsci.distributions.geninvgauss.cdf.<lambda>@148"; "mpsci.distributions.geninvgauss.cdf.<lambda>@149"]))) (Seq (Eval []) (Seq (Eval []) (Return)))))))));
  (** mpsci/distributions/geninvgauss.py:171-171 *)
  ("mpsci.distributions.geninvgauss.sf.<lambda>@171", Eval ["mpsci.distributions.geninvgauss.pdf"]);
  (** mpsci/distributions/geninvgauss.py:173-173 *)
  ("mpsci.distributions.geninvgauss.sf.<lambda>@173", Eval ["mpsci.distributions.geninvgauss.pdf"]);
  (** mpsci/distributions/geninvgauss.py:174-174 *)
  ("mpsci.distributions.geninvgauss.sf.<lambda>@174", Eval ["mpsci.distributions.geninvgauss.pdf"]);
  (** mpsci/distributions/geninvgauss.py:154-175 *)
  ("mpsci.distributions.geninvgauss.sf", With (ExtraDps (Num 5)) (Seq (Eval ["mpsci.distributions.geninvgauss._validate_params"]) (Seq (Eval []) (Seq (Seq (Eval []) (If (Seq (Eval []) (Return)) (Skip))) (Seq (Eval ["mpsci.distributions.geninvgauss.mode"]) (Seq (Seq (Eval []) (If (Eval ["?"; "mpsci.distributions.geninvgauss.sf.<lambda>@171"]) (Eval ["?"; "mpsci.distributions.geninvgauss.sf.<lambda>@173"; "mpsci.distributions.geninvgauss.sf.<lambda>@174"]))) (Seq (Eval []) (Return))))))));
  (** mpsci/distributions/geninvgauss.py:178-183 *)
  ("mpsci.distributions.geninvgauss.support", Seq (Eval ["mpsci.distributions.geninvgauss._validate_params"]) (Seq (Eval []) (Return)));
  (** mpsci/distributions/geninvgauss.py:186-201 *)
  ("mpsci.distributions.geninvgauss.mean", With (ExtraDps (Num 5)) (Seq (Eval ["mpsci.distributions.geninvgauss._validate_params"]) (Seq (Eval []) (Return))));
  (** mpsci/distributions/geninvgauss.py:217-229 *)
  ("mpsci.distributions.geninvgauss.mode", With (ExtraDps (Num 5)) (Seq (Eval ["mpsci.distributions.geninvgauss._validate_params"]) (Seq (Eval []) (Return))));
  (** mpsci/distributions/geninvgauss.py:245-254 *)
  ("mpsci.distributions.geninvgauss.var", With (ExtraDps (Num 5)) (Seq (Eval ["mpsci.distributions.geninvgauss._validate_params"]) (Seq (Eval []) (Seq (Eval []) (Seq (Eval []) (Seq (Eval []) (Return)))))));
  (** mpsci/distributions/geninvgauss.py:258-258 *)
  ("mpsci.distributions.geninvgauss._besselk_nderiv.<lambda>@258", Eval []);
  (** mpsci/distributions/geninvgauss.py:257-258 *)
  ("mpsci.distributions.geninvgauss._besselk_nderiv", Seq (Eval ["?"; "mpsci.distributions.geninvgauss._besselk_nderiv.<lambda>@258"]) (Return));
  (** mpsci/distributions/geninvgauss.py:261-276 *)
  ("mpsci.distributions.geninvgauss.entropy", With (ExtraDps (Num 5)) (Seq (Eval ["mpsci.distributions.geninvgauss._validate_params"]) (Seq (Eval []) (Seq (Eval []) (Seq (Eval []) (Seq (Eval ["mpsci.distributions.geninvgauss._besselk_nderiv"]) (Seq (Eval []) (Seq (Eval []) (Return)))))))));
  (** mpsci/distributions/geninvgauss.py:1-277 *)
  ("mpsci.distributions.geninvgauss.<module>", Seq (Eval []) (Seq (Eval []) (Seq (Eval []) (Seq (Eval []) (Seq (Eval []) (Seq (Eval []) (Seq (Eval []) (Seq (Eval []) (Eval [])))))))));
  (** mpsci/distributions/genpareto.py:16-19 *)
  ("mpsci.distributions.genpareto._validate_params", Seq (Seq (Eval []) (If (Seq (Eval []) (Raise)) (Skip))) (Seq (Eval []) (Return)));
  (** mpsci/distributions/genpareto.py:22-38 *)
  ("mpsci.distributions.genpareto.pdf", With (ExtraDps (Num 5)) (Seq (Eval ["mpsci.distributions.genpareto._validate_params"]) (Seq (Eval []) (Seq (Eval []) (Seq (Seq (Eval []) (If (Eval []) (Seq (Seq (Eval []) (If (Eval []) (Eval []))) (Eval [])))) (Seq (Eval []) (Return)))))));
  (** mpsci/distributions/genpareto.py:41-57 *)
  ("mpsci.distributions.genpareto.logpdf", With (ExtraDps (Num 5)) (Seq (Eval ["mpsci.distributions.genpareto._validate_params"]) (Seq (Eval []) (Seq (Eval []) (Seq (Seq (Eval []) (If (Eval []) (Seq (Seq (Eval []) (If (Eval []) (Eval []))) (Eval [])))) (Seq (Eval []) (Return)))))));
  (** mpsci/distributions/genpareto.py:60-77 *)
  ("mpsci.distributions.genpareto.cdf", With (ExtraDps (Num 5)) (Seq (Eval ["mpsci.distributions.genpareto._validate_params"]) (Seq (Eval []) (Seq (Eval []) (Seq (Seq (Eval []) (If (Eval []) (Seq (Eval []) (If (Eval []) (Seq (Eval []) (If (Eval []) (Eval []))))))) (Seq (Eval []) (Return)))))));
  (** mpsci/distributions/genpareto.py:80-101 *)
  ("mpsci.distributions.genpareto.invcdf", With (ExtraDps (Num 5)) (Seq (Eval ["mpsci.distributions.genpareto._validate_params"]) (Seq (Eval ["mpsci.distributions._common._validate_p"]) (Seq (Seq (Eval []) (If (Seq (Eval []) (Return)) (Skip))) (Seq (Seq (Eval []) (If (Seq (Eval []) (If (Seq (Eval []) (Return)) (Seq (Eval []) (Return)))) (Skip))) (Seq (Eval []) (If (Seq (Eval []) (Return)) (Seq (Eval ["mpsci.fun._powm1.pow1pm1"]) (Return)))))))));
  (** mpsci/distributions/genpareto.py:104-121 *)
  ("mpsci.distributions.genpareto.sf", With (ExtraDps (Num 5)) (Seq (Eval ["mpsci.distributions.genpareto._validate_params"]) (Seq (Eval []) (Seq (Eval []) (Seq (Seq (Eval []) (If (Eval []) (Seq (Eval []) (If (Eval []) (Seq (Eval []) (If (Eval []) (Eval []))))))) (Seq (Eval []) (Return)))))));
  (** mpsci/distributions/genpareto.py:124-144 *)
  ("mpsci.distributions.genpareto.invsf", With (ExtraDps (Num 5)) (Seq (Eval ["mpsci.distributions.genpareto._validate_params"]) (Seq (Eval ["mpsci.distributions._common._validate_p"]) (Seq (Seq (Eval []) (If (Seq (Eval []) (Return)) (Skip))) (Seq (Seq (Eval []) (If (Seq (Eval []) (If (Seq (Eval []) (Return)) (Seq (Eval []) (Return)))) (Skip))) (Seq (Eval []) (If (Seq (Eval []) (Return)) (Seq (Eval []) (Return)))))))));
  (** mpsci/distributions/genpareto.py:147-157 *)
  ("mpsci.distributions.genpareto.support", With (ExtraDps (Num 5)) (Seq (Eval ["mpsci.distributions.genpareto._validate_params"]) (Seq (Seq (Eval []) (If (Eval []) (Eval []))) (Seq (Eval []) (Return)))));
  (** mpsci/distributions/genpareto.py:160-168 *)
  ("mpsci.distributions.genpareto.mean", With (ExtraDps (Num 5)) (Seq (Eval ["mpsci.distributions.genpareto._validate_params"]) (Seq (Seq (Eval []) (If (Seq (Eval []) (Return)) (Skip))) (Seq (Eval []) (Return)))));
  (** mpsci/distributions/genpareto.py:171-179 *)
  ("mpsci.distributions.genpareto.var", With (ExtraDps (Num 5)) (Seq (Eval ["mpsci.distributions.genpareto._validate_params"]) (Seq (Seq (Eval []) (If (Seq (Eval []) (Return)) (Skip))) (Seq (Eval []) (Return)))));
  (** mpsci/distributions/genpareto.py:182-188 *)
  ("mpsci.distributions.genpareto.entropy", With (ExtraDps (Num 5)) (Seq (Eval ["mpsci.distributions.genpareto._validate_params"]) (Seq (Eval []) (Return))));
  (** mpsci/distributions/genpareto.py:191-208 *)
  ("mpsci.distributions.genpareto.nll", With (ExtraDps (Num 5)) (Seq (Eval ["mpsci.distributions.genpareto._validate_params"]) (Seq (Seq (Eval []) (If (Seq (Eval []) (Seq (Eval []) (Eval []))) (Seq (Eval []) (Seq (Eval []) (Eval []))))) (Seq (Eval ["mpsci.distributions._common._validate_x_bounds"]) (Seq (Eval ["mpsci.distributions.genpareto.logpdf"]) (Return))))));
  (** mpsci/distributions/genpareto.py:1-209 *)
  ("mpsci.distributions.genpareto.<module>", Eval [])
].
Definition table8 : program := [
  (** mpsci/distributions/gompertz.py:27-32 *)
  ("mpsci.distributions.gompertz._validate_c_scale", Seq (Seq (Eval []) (If (Seq (Eval []) (Raise)) (Skip))) (Seq (Seq (Eval []) (If (Seq (Eval []) (Raise)) (Skip))) (Seq (Eval []) (Return))));
  (** mpsci/distributions/gompertz.py:35-50 *)
  ("mpsci.distributions.gompertz.pdf", With (ExtraDps (Num 5)) (Seq (Eval []) (Seq (Eval ["mpsci.distributions.gompertz._validate_c_scale"]) (Seq (Seq (Eval []) (If (Seq (Eval []) (Return)) (Skip))) (Seq (Seq (Eval []) (If (Seq (Eval []) (Return)) (Skip))) (Seq (Eval []) (Seq (Eval []) (Return))))))));
  (** mpsci/distributions/gompertz.py:53-68 *)
  ("mpsci.distributions.gompertz.logpdf", With (ExtraDps (Num 5)) (Seq (Eval []) (Seq (Eval ["mpsci.distributions.gompertz._validate_c_scale"]) (Seq (Seq (Eval []) (If (Seq (Eval []) (Return)) (Skip))) (Seq (Seq (Eval []) (If (Seq (Eval []) (Return)) (Skip))) (Seq (Eval []) (Seq (Eval []) (Return))))))));
  (** mpsci/distributions/gompertz.py:71-84 *)
  ("mpsci.distributions.gompertz.cdf", With (ExtraDps (Num 5)) (Seq (Eval []) (Seq (Eval ["mpsci.distributions.gompertz._validate_c_scale"]) (Seq (Seq (Eval []) (If (Seq (Eval []) (Return)) (Skip))) (Seq (Eval []) (Seq (Eval []) (Return)))))));
  (** mpsci/distributions/gompertz.py:87-101 *)
  ("mpsci.distributions.gompertz.invcdf", With (ExtraDps (Num 5)) (Seq (Eval ["mpsci.distributions._common._validate_p"]) (Seq (Eval ["mpsci.distributions.gompertz._validate_c_scale"]) (Seq (Seq (Eval []) (If (Seq (Eval []) (Return)) (Seq (Eval []) (If (Seq (Eval []) (Return)) (Skip))))) (Seq (Eval []) (Return))))));
  (** mpsci/distributions/gompertz.py:104-117 *)
  ("mpsci.distributions.gompertz.sf", With (ExtraDps (Num 5)) (Seq (Eval []) (Seq (Eval ["mpsci.distributions.gompertz._validate_c_scale"]) (Seq (Seq (Eval []) (If (Seq (Eval []) (Return)) (Skip))) (Seq (Eval []) (Seq (Eval []) (Return)))))));
  (** mpsci/distributions/gompertz.py:120-134 *)
  ("mpsci.distributions.gompertz.invsf", With (ExtraDps (Num 5)) (Seq (Eval ["mpsci.distributions._common._validate_p"]) (Seq (Eval ["mpsci.distributions.gompertz._validate_c_scale"]) (Seq (Seq (Eval []) (If (Seq (Eval []) (Return)) (Seq (Eval []) (If (Seq (Eval []) (Return)) (Skip))))) (Seq (Eval []) (Return))))));
  (** mpsci/distributions/gompertz.py:137-143 *)
  ("mpsci.distributions.gompertz.support", With (ExtraDps (Num 5)) (Seq (Eval ["mpsci.distributions.gompertz._validate_c_scale"]) (Seq (Eval []) (Return))));
  (** mpsci/distributions/gompertz.py:146-155 *)
  ("mpsci.distributions.gompertz.mean", With (ExtraDps (Num 5)) (Seq (Eval ["mpsci.distributions.gompertz._validate_c_scale"]) (Seq (Eval []) (Return))));
  (** mpsci/distributions/gompertz.py:158-168 *)
  ("mpsci.distributions.gompertz.mode", With (ExtraDps (Num 5)) (Seq (Eval ["mpsci.distributions.gompertz._validate_c_scale"]) (Seq (Seq (Eval []) (If (Seq (Eval []) (Return)) (Skip))) (Seq (Eval []) (Return)))));
  (** mpsci/distributions/gompertz.py:171-184 *)
  ("mpsci.distributions.gompertz.var", With (ExtraDps (Num 5)) (Seq (Eval ["mpsci.distributions.gompertz._validate_c_scale"]) (Seq (Eval []) (Seq (Eval []) (Seq (Eval []) (Return))))));
  (** mpsci/distributions/gompertz.py:187-196 *)
  ("mpsci.distributions.gompertz.entropy", With (ExtraDps (Num 5)) (Seq (Eval ["mpsci.distributions.gompertz._validate_c_scale"]) (Seq (Eval []) (Return))));
  (** mpsci/distributions/gompertz.py:199-209 *)
  ("mpsci.distributions.gompertz.nll", With (ExtraDps (Num 5)) (Seq (Eval ["mpsci.distributions.gompertz._validate_c_scale"]) (Seq (Eval ["mpsci.distributions._common._validate_x_bounds"]) (Seq (Eval ["mpsci.distributions.gompertz.logpdf"]) (Return)))));
  (** mpsci/distributions/gompertz.py:237-240 *)
  ("mpsci.distributions.gompertz.mle.<locals>.mle_scale_eqn", Seq (Eval ["mpsci.stats._basic.mean"]) (Seq (Eval ["mpsci.stats._basic.mean"]) (Seq (Eval []) (Return))));
  (** mpsci/distributions/gompertz.py:257-259 *)
  ("mpsci.distributions.gompertz.mle.<locals>.mle_scale_eqn", Seq (Eval ["mpsci.stats._basic.mean"]) (Seq (Eval []) (Return)));
  (** mpsci/distributions/gompertz.py:212-262 *)
  ("mpsci.distributions.gompertz.mle", With (ExtraDps (Num 5)) (Seq (Eval []) (Seq (Eval ["mpsci.distributions._common._validate_x_bounds"]) (Seq (Eval []) (If (Seq (Eval []) (If (Seq (Eval ["mpsci.distributions.gompertz._validate_c_scale"]) (Seq (Eval ["mpsci.stats._basic.mean"]) (Seq (Eval []) (Seq (Eval []) (Return))))) (Seq (Eval []) (Seq (Eval ["mpsci.stats._basic.mean"]) (Seq (Eval ["?"; "mpsci.distributions.gompertz.mle.<locals>.mle_scale_eqn"]) (Seq (Eval ["mpsci.stats._basic.mean"]) (Seq (Eval []) (Seq (Eval []) (Return))))))))) (Seq (Eval []) (If (Seq (Eval ["mpsci.distributions.gompertz._validate_c_scale"]) (Seq (Eval []) (Return))) (Seq (Eval ["mpsci.distributions.gompertz._validate_c_scale"]) (Seq (Eval []) (Seq (Eval ["mpsci.stats._basic.mean"]) (Seq (Eval ["?"; "mpsci.distributions.gompertz.mle.<locals>.mle_scale_eqn"]) (Seq (Eval []) (Return)))))))))))));
  (** mpsci/distributions/gompertz.py:1-263 *)
  ("mpsci.distributions.gompertz.<module>", Eval []);
  (** mpsci/distributions/gumbel_max.py:34-40 *)
  ("mpsci.distributions.gumbel_max.pdf", With (ExtraDps (Num 5)) (Seq (Eval ["mpsci.distributions._common._validate_loc_scale"]) (Seq (Eval ["mpsci.distributions.gumbel_max.logpdf"]) (Return))));
  (** mpsci/distributions/gumbel_max.py:43-51 *)
  ("mpsci.distributions.gumbel_max.logpdf", With (ExtraDps (Num 5)) (Seq (Eval ["mpsci.distributions._common._validate_loc_scale"]) (Seq (Eval []) (Seq (Eval []) (Seq (Eval []) (Return))))));
  (** mpsci/distributions/gumbel_max.py:54-62 *)
  ("mpsci.distributions.gumbel_max.cdf", With (ExtraDps (Num 5)) (Seq (Eval ["mpsci.distributions._common._validate_loc_scale"]) (Seq (Eval []) (Seq (Eval []) (Seq (Eval []) (Return))))));
  (** mpsci/distributions/gumbel_max.py:65-74 *)
  ("mpsci.distributions.gumbel_max.invcdf", With (ExtraDps (Num 5)) (Seq (Eval ["mpsci.distributions._common._validate_loc_scale"]) (Seq (Eval ["mpsci.distributions._common._validate_p"]) (Seq (Eval []) (Seq (Eval []) (Seq (Eval []) (Return)))))));
  (** mpsci/distributions/gumbel_max.py:77-85 *)
  ("mpsci.distributions.gumbel_max.sf", With (ExtraDps (Num 5)) (Seq (Eval ["mpsci.distributions._common._validate_loc_scale"]) (Seq (Eval []) (Seq (Eval []) (Seq (Eval []) (Return))))));
  (** mpsci/distributions/gumbel_max.py:88-97 *)
  ("mpsci.distributions.gumbel_max.invsf", With (ExtraDps (Num 5)) (Seq (Eval ["mpsci.distributions._common._validate_loc_scale"]) (Seq (Eval ["mpsci.distributions._common._validate_p"]) (Seq (Eval []) (Seq (Eval []) (Seq (Eval []) (Return)))))));
  (** mpsci/distributions/gumbel_max.py:100-105 *)
  ("mpsci.distributions.gumbel_max.support", Seq (Eval ["mpsci.distributions._common._validate_loc_scale"]) (Seq (Eval []) (Return)));
  (** mpsci/distributions/gumbel_max.py:108-114 *)
  ("mpsci.distributions.gumbel_max.mean", With (ExtraDps (Num 5)) (Seq (Eval ["mpsci.distributions._common._validate_loc_scale"]) (Seq (Eval []) (Return))));
  (** mpsci/distributions/gumbel_max.py:117-122 *)
  ("mpsci.distributions.gumbel_max.mode", Seq (Eval ["mpsci.distributions._common._validate_loc_scale"]) (Seq (Eval []) (Return)));
  (** mpsci/distributions/gumbel_max.py:125-131 *)
  ("mpsci.distributions.gumbel_max.var", With (ExtraDps (Num 5)) (Seq (Eval ["mpsci.distributions._common._validate_loc_scale"]) (Seq (Eval []) (Return))));
  (** mpsci/distributions/gumbel_max.py:134-145 *)
  ("mpsci.distributions.gumbel_max.nll", With (ExtraDps (Num 5)) (Seq (Eval ["mpsci.distributions._common._validate_loc_scale"]) (Seq (Eval []) (Seq (Eval []) (Seq (Eval []) (Seq (Eval []) (Seq (Eval []) (Seq (Eval []) (Return)))))))));
  (** mpsci/distributions/gumbel_max.py:148-152 *)
  ("mpsci.distributions.gumbel_max._mle_scale_func", Seq (Eval []) (Seq (Eval []) (Seq (Eval []) (Seq (Eval []) (Return)))));
  (** mpsci/distributions/gumbel_max.py:186-186 *)
  ("mpsci.distributions.gumbel_max._solve_mle_scale.<lambda>@186", Eval ["mpsci.distributions.gumbel_max._mle_scale_func"]);
  (** mpsci/distributions/gumbel_max.py:155-189 *)
  ("mpsci.distributions.gumbel_max._solve_mle_scale", Seq (Eval ["mpsci.stats._basic.mean"]) (Seq (Eval ["mpsci.stats._basic.std"]) (Seq (Seq (Eval []) (If (Seq (Eval []) (Return)) (Skip))) (Seq (Eval []) (Seq (Eval []) (Seq (Eval ["mpsci.distributions.gumbel_max._mle_scale_func"]) (Seq (Seq (Eval []) (Loop (Seq (Seq (Eval []) (Seq (Eval ["mpsci.distributions.gumbel_max._mle_scale_func"]) (Seq (Seq (Eval []) (If (Break) (Skip))) (Seq (Eval []) (Seq (Eval ["mpsci.distributions.gumbel_max._mle_scale_func"]) (Seq (Eval []) (If (Break) (Skip)))))))) (Eval [])))) (Seq (Seq (Eval []) (If (Seq (Eval []) (Return)) (Skip))) (Seq (Seq (Eval []) (If (Seq (Eval []) (Return)) (Skip))) (Seq (Eval ["?"; "mpsci.distributions.gumbel_max._solve_mle_scale.<lambda>@186"]) (Seq (Eval []) (Return))))))))))));
  (** mpsci/distributions/gumbel_max.py:192-195 *)
  ("mpsci.distributions.gumbel_max._mle_scale_with_fixed_loc", Seq (Eval []) (Seq (Eval []) (Seq (Eval ["mpsci.stats._basic.mean"]) (Return))));
  (** mpsci/distributions/gumbel_max.py:242-242 *)
  ("mpsci.distributions.gumbel_max.mle.<lambda>@242", Eval ["mpsci.distributions.gumbel_max._mle_scale_with_fixed_loc"]);
  (** mpsci/distributions/gumbel_max.py:198-257 *)
  ("mpsci.distributions.gumbel_max.mle", With (ExtraDps (Num 5)) (Seq (Eval ["mpsci.distributions._common._seq_to_mp"]) (Seq (Seq (Eval []) (If (Seq (Eval []) (Seq (Eval ["mpsci.stats._basic.std"]) (Seq (Eval ["?"; "mpsci.distributions.gumbel_max.mle.<lambda>@242"]) (Seq (Eval []) (Return))))) (Skip))) (Seq (Seq (Eval []) (If (Eval ["mpsci.distributions.gumbel_max._solve_mle_scale"]) (Eval []))) (Seq (Seq (Eval []) (If (Seq (Eval []) (Eval ["mpsci.stats._basic.mean"])) (Eval []))) (Seq (Eval []) (Return)))))));
  (** mpsci/distributions/gumbel_max.py:260-273 *)
  ("mpsci.distributions.gumbel_max.mom", With (ExtraDps (Num 5)) (Seq (Eval ["mpsci.stats._basic.mean"]) (Seq (Eval ["mpsci.stats._basic.mean"]) (Seq (Eval []) (Seq (Eval []) (Seq (Eval []) (Return)))))));
  (** mpsci/distributions/gumbel_max.py:1-274 *)
  ("mpsci.distributions.gumbel_max.<module>", Eval []);
  (** mpsci/distributions/gumbel_min.py:25-31 *)
  ("mpsci.distributions.gumbel_min.pdf", With (ExtraDps (Num 5)) (Seq (Eval ["mpsci.distributions._common._validate_loc_scale"]) (Seq (Eval ["mpsci.distributions.gumbel_min.logpdf"]) (Return))));
  (** mpsci/distributions/gumbel_min.py:34-42 *)
  ("mpsci.distributions.gumbel_min.logpdf", With (ExtraDps (Num 5)) (Seq (Eval ["mpsci.distributions._common._validate_loc_scale"]) (Seq (Eval []) (Seq (Eval []) (Seq (Eval []) (Return))))));
  (** mpsci/distributions/gumbel_min.py:45-53 *)
  ("mpsci.distributions.gumbel_min.cdf", With (ExtraDps (Num 5)) (Seq (Eval ["mpsci.distributions._common._validate_loc_scale"]) (Seq (Eval []) (Seq (Eval []) (Seq (Eval []) (Return))))));
  (** mpsci/distributions/gumbel_min.py:56-65 *)
  ("mpsci.distributions.gumbel_min.invcdf", With (ExtraDps (Num 5)) (Seq (Eval ["mpsci.distributions._common._validate_loc_scale"]) (Seq (Eval ["mpsci.distributions._common._validate_p"]) (Seq (Eval []) (Seq (Eval []) (Seq (Eval []) (Return)))))));
  (** mpsci/distributions/gumbel_min.py:68-76 *)
  ("mpsci.distributions.gumbel_min.sf", With (ExtraDps (Num 5)) (Seq (Eval ["mpsci.distributions._common._validate_loc_scale"]) (Seq (Eval []) (Seq (Eval []) (Seq (Eval []) (Return))))));
  (** mpsci/distributions/gumbel_min.py:79-88 *)
  ("mpsci.distributions.gumbel_min.invsf", With (ExtraDps (Num 5)) (Seq (Eval ["mpsci.distributions._common._validate_loc_scale"]) (Seq (Eval ["mpsci.distributions._common._validate_p"]) (Seq (Eval []) (Seq (Eval []) (Seq (Eval []) (Return)))))));
  (** mpsci/distributions/gumbel_min.py:91-96 *)
  ("mpsci.distributions.gumbel_min.support", Seq (Eval ["mpsci.distributions._common._validate_loc_scale"]) (Seq (Eval []) (Return)));
  (** mpsci/distributions/gumbel_min.py:99-105 *)
  ("mpsci.distributions.gumbel_min.mean", With (ExtraDps (Num 5)) (Seq (Eval ["mpsci.distributions._common._validate_loc_scale"]) (Seq (Eval []) (Return))));
  (** mpsci/distributions/gumbel_min.py:108-113 *)
  ("mpsci.distributions.gumbel_min.mode", Seq (Eval ["mpsci.distributions._common._validate_loc_scale"]) (Seq (Eval []) (Return)));
  (** mpsci/distributions/gumbel_min.py:116-122 *)
  ("mpsci.distributions.gumbel_min.var", With (ExtraDps (Num 5)) (Seq (Eval ["mpsci.distributions._common._validate_loc_scale"]) (Seq (Eval []) (Return))));
  (** mpsci/distributions/gumbel_min.py:125-136 *)
  ("mpsci.distributions.gumbel_min.nll", With (ExtraDps (Num 5)) (Seq (Eval ["mpsci.distributions._common._validate_loc_scale"]) (Seq (Eval []) (Seq (Eval []) (Seq (Eval []) (Seq (Eval []) (Seq (Eval []) (Seq (Eval []) (Return)))))))));
  (** mpsci/distributions/gumbel_min.py:139-143 *)
  ("mpsci.distributions.gumbel_min._mle_scale_func", Seq (Eval []) (Seq (Eval []) (Seq (Eval []) (Seq (Eval []) (Return)))));
  (** mpsci/distributions/gumbel_min.py:177-177 *)
  ("mpsci.distributions.gumbel_min._solve_mle_scale.<lambda>@177", Eval ["mpsci.distributions.gumbel_min._mle_scale_func"]);
  (** mpsci/distributions/gumbel_min.py:146-180 *)
  ("mpsci.distributions.gumbel_min._solve_mle_scale", Seq (Eval ["mpsci.stats._basic.mean"]) (Seq (Eval ["mpsci.stats._basic.std"]) (Seq (Seq (Eval []) (If (Seq (Eval []) (Return)) (Skip))) (Seq (Eval []) (Seq (Eval []) (Seq (Eval ["mpsci.distributions.gumbel_min._mle_scale_func"]) (Seq (Seq (Eval []) (Loop (Seq (Seq (Eval []) (Seq (Eval ["mpsci.distributions.gumbel_min._mle_scale_func"]) (Seq (Seq (Eval []) (If (Break) (Skip))) (Seq (Eval []) (Seq (Eval ["mpsci.distributions.gumbel_min._mle_scale_func"]) (Seq (Eval []) (If (Break) (Skip)))))))) (Eval [])))) (Seq (Seq (Eval []) (If (Seq (Eval []) (Return)) (Skip))) (Seq (Seq (Eval []) (If (Seq (Eval []) (Return)) (Skip))) (Seq (Eval ["?"; "mpsci.distributions.gumbel_min._solve_mle_scale.<lambda>@177"]) (Seq (Eval []) (Return))))))))))));
  (** mpsci/distributions/gumbel_min.py:183-186 *)
  ("mpsci.distributions.gumbel_min._mle_scale_with_fixed_loc", Seq (Eval []) (Seq (Eval []) (Seq (Eval ["mpsci.stats._basic.mean"]) (Return))));
  (** mpsci/distributions/gumbel_min.py:233-233 *)
  ("mpsci.distributions.gumbel_min.mle.<lambda>@233", Eval ["mpsci.distributions.gumbel_min._mle_scale_with_fixed_loc"]);
  (** mpsci/distributions/gumbel_min.py:189-248 *)
  ("mpsci.distributions.gumbel_min.mle", With (ExtraDps (Num 5)) (Seq (Eval ["mpsci.distributions._common._seq_to_mp"]) (Seq (Seq (Eval []) (If (Seq (Eval []) (Seq (Eval ["mpsci.stats._basic.std"]) (Seq (Eval ["?"; "mpsci.distributions.gumbel_min.mle.<lambda>@233"]) (Seq (Eval []) (Return))))) (Skip))) (Seq (Seq (Eval []) (If (Eval ["mpsci.distributions.gumbel_min._solve_mle_scale"]) (Eval []))) (Seq (Seq (Eval []) (If (Seq (Eval []) (Eval ["mpsci.stats._basic.mean"])) (Eval []))) (Seq (Eval []) (Return)))))));
  (** mpsci/distributions/gumbel_min.py:251-264 *)
  ("mpsci.distributions.gumbel_min.mom", With (ExtraDps (Num 5)) (Seq (Eval ["mpsci.stats._basic.mean"]) (Seq (Eval ["mpsci.stats._basic.mean"]) (Seq (Eval []) (Seq (Eval []) (Seq (Eval []) (Return)))))));
  (** mpsci/distributions/gumbel_min.py:1-265 *)
  ("mpsci.distributions.gumbel_min.<module>", Eval []);
  (** mpsci/distributions/half_logistic.py:19-29 *)
  ("mpsci.distributions.half_logistic.pdf", With (ExtraDps (Num 5)) (Seq (Eval ["mpsci.distributions._common._validate_loc_scale"]) (Seq (Eval []) (Seq (Seq (Eval []) (If (Seq (Eval []) (Return)) (Skip))) (Seq (Eval []) (Seq (Eval []) (Return)))))));
  (** mpsci/distributions/half_logistic.py:32-42 *)
  ("mpsci.distributions.half_logistic.logpdf", With (ExtraDps (Num 5)) (Seq (Eval ["mpsci.distributions._common._validate_loc_scale"]) (Seq (Eval []) (Seq (Seq (Eval []) (If (Seq (Eval []) (Return)) (Skip))) (Seq (Eval []) (Seq (Eval []) (Return)))))));
  (** mpsci/distributions/half_logistic.py:45-55 *)
  ("mpsci.distributions.half_logistic.cdf", With (ExtraDps (Num 5)) (Seq (Eval ["mpsci.distributions._common._validate_loc_scale"]) (Seq (Eval []) (Seq (Seq (Eval []) (If (Seq (Eval []) (Return)) (Skip))) (Seq (Eval []) (Seq (Eval []) (Return)))))));
  (** mpsci/distributions/half_logistic.py:58-71 *)
  ("mpsci.distributions.half_logistic.invcdf", With (ExtraDps (Num 5)) (Seq (Eval ["mpsci.distributions._common._validate_loc_scale"]) (Seq (Eval ["mpsci.distributions._common._validate_p"]) (Seq (Seq (Eval []) (If (Seq (Eval []) (Return)) (Skip))) (Seq (Seq (Eval []) (If (Seq (Eval []) (Return)) (Skip))) (Seq (Eval []) (Return)))))));
  (** mpsci/distributions/half_logistic.py:74-84 *)
  ("mpsci.distributions.half_logistic.sf", With (ExtraDps (Num 5)) (Seq (Eval ["mpsci.distributions._common._validate_loc_scale"]) (Seq (Eval []) (Seq (Seq (Eval []) (If (Seq (Eval []) (Return)) (Skip))) (Seq (Eval []) (Seq (Eval []) (Return)))))))
].
Definition table9 : program := [
  (** mpsci/distributions/half_logistic.py:87-98 *)
  ("mpsci.distributions.half_logistic.invsf", With (ExtraDps (Num 5)) (Seq (Eval ["mpsci.distributions._common._validate_loc_scale"]) (Seq (Eval ["mpsci.distributions._common._validate_p"]) (Seq (Seq (Eval []) (If (Seq (Eval []) (Return)) (Skip))) (Seq (Seq (Eval []) (If (Seq (Eval []) (Return)) (Skip))) (Seq (Eval []) (Return)))))));
  (** mpsci/distributions/half_logistic.py:101-107 *)
  ("mpsci.distributions.half_logistic.mean", With (ExtraDps (Num 5)) (Seq (Eval ["mpsci.distributions._common._validate_loc_scale"]) (Seq (Eval []) (Return))));
  (** mpsci/distributions/half_logistic.py:110-118 *)
  ("mpsci.distributions.half_logistic.mode", Seq (Eval ["mpsci.distributions._common._validate_loc_scale"]) (Seq (Eval []) (Return)));
  (** mpsci/distributions/half_logistic.py:121-127 *)
  ("mpsci.distributions.half_logistic.var", With (ExtraDps (Num 5)) (Seq (Eval ["mpsci.distributions._common._validate_loc_scale"]) (Seq (Eval []) (Return))));
  (** mpsci/distributions/half_logistic.py:130-136 *)
  ("mpsci.distributions.half_logistic.entropy", With (ExtraDps (Num 5)) (Seq (Eval ["mpsci.distributions._common._validate_loc_scale"]) (Seq (Eval []) (Return))));
  (** mpsci/distributions/half_logistic.py:139-144 *)
  ("mpsci.distributions.half_logistic.support", Seq (Eval ["mpsci.distributions._common._validate_loc_scale"]) (Seq (Eval []) (Return)));
  (** mpsci/distributions/half_logistic.py:1-145 *)
  ("mpsci.distributions.half_logistic.<module>", Eval []);
  (** mpsci/distributions/hypergeometric.py:14-23 *)
  ("mpsci.distributions.hypergeometric._validate", Seq (Seq (Eval []) (If (Seq (Eval []) (Raise)) (Skip))) (Seq (Seq (Eval []) (If (Seq (Eval []) (Raise)) (Skip))) (Seq (Eval []) (If (Seq (Eval []) (Raise)) (Skip)))));
  (** mpsci/distributions/hypergeometric.py:26-37 *)
  ("mpsci.distributions.hypergeometric.pmf", With (ExtraDps (Num 5)) (Seq (Eval ["mpsci.distributions.hypergeometric._validate"]) (Seq (Eval []) (Seq (Eval []) (Seq (Eval []) (Seq (Eval []) (Seq (Eval []) (Return))))))));
  (** mpsci/distributions/hypergeometric.py:40-58 *)
  ("mpsci.distributions.hypergeometric.logpmf", With (ExtraDps (Num 5)) (Seq (Eval ["mpsci.distributions.hypergeometric._validate"]) (Seq (Eval []) (Seq (Eval ["mpsci.fun._logbeta.logbeta"]) (Seq (Eval ["mpsci.fun._logbeta.logbeta"]) (Seq (Eval []) (Return)))))));
  (** mpsci/distributions/hypergeometric.py:61-67 *)
  ("mpsci.distributions.hypergeometric.cdf", With (ExtraDps (Num 5)) (Seq (Eval ["mpsci.distributions.hypergeometric._validate"]) (Seq (Eval ["mpsci.distributions.hypergeometric.sf"]) (Return))));
  (** mpsci/distributions/hypergeometric.py:70-82 *)
  ("mpsci.distributions.hypergeometric.sf", With (ExtraDps (Num 5)) (Seq (Eval ["mpsci.distributions.hypergeometric._validate"]) (Seq (Eval []) (Seq (Eval []) (Seq (Eval []) (Seq (Eval []) (Seq (Eval []) (Return))))))));
  (** mpsci/distributions/hypergeometric.py:85-107 *)
  ("mpsci.distributions.hypergeometric.support", Seq (Eval ["mpsci.distributions.hypergeometric._validate"]) (Seq (Eval []) (Seq (Eval []) (Seq (Eval []) (Return)))));
  (** mpsci/distributions/hypergeometric.py:110-138 *)
  ("mpsci.distributions.hypergeometric.support_pmf", Seq (Eval ["mpsci.distributions.hypergeometric.support"]) (Seq (Eval ["mpsci.distributions.hypergeometric.pmf"]) (Seq (Eval []) (Return))));
  (** mpsci/distributions/hypergeometric.py:141-147 *)
  ("mpsci.distributions.hypergeometric.mean", With (ExtraDps (Num 5)) (Seq (Eval ["mpsci.distributions.hypergeometric._validate"]) (Seq (Eval []) (Return))));
  (** mpsci/distributions/hypergeometric.py:150-160 *)
  ("mpsci.distributions.hypergeometric.mode", With (ExtraDps (Num 5)) (Seq (Eval ["mpsci.distributions.hypergeometric._validate"]) (Seq (Eval []) (Seq (Eval []) (Return)))));
  (** mpsci/distributions/hypergeometric.py:163-174 *)
  ("mpsci.distributions.hypergeometric.var", With (ExtraDps (Num 5)) (Seq (Eval ["mpsci.distributions.hypergeometric._validate"]) (Seq (Eval []) (Seq (Eval []) (Seq (Eval []) (Seq (Eval []) (Seq (Eval []) (Return))))))));
  (** mpsci/distributions/hypergeometric.py:1-175 *)
  ("mpsci.distributions.hypergeometric.<module>", Eval []);
  (** mpsci/distributions/hypsecant.py:24-27 *)
  ("mpsci.distributions.hypsecant._validate_args", Seq (Eval []) (Seq (Eval ["mpsci.distributions._common._validate_loc_scale"]) (Seq (Eval []) (Return))));
  (** mpsci/distributions/hypsecant.py:30-37 *)
  ("mpsci.distributions.hypsecant.pdf", With (ExtraDps (Num 5)) (Seq (Eval ["mpsci.distributions.hypsecant._validate_args"]) (Seq (Eval []) (Seq (Eval []) (Return)))));
  (** mpsci/distributions/hypsecant.py:40-46 *)
  ("mpsci.distributions.hypsecant.logpdf", Seq (Eval ["mpsci.distributions.hypsecant.pdf"]) (Return));
  (** mpsci/distributions/hypsecant.py:49-56 *)
  ("mpsci.distributions.hypsecant.cdf", With (ExtraDps (Num 5)) (Seq (Eval ["mpsci.distributions.hypsecant._validate_args"]) (Seq (Eval []) (Seq (Eval []) (Return)))));
  (** mpsci/distributions/hypsecant.py:59-66 *)
  ("mpsci.distributions.hypsecant.sf", With (ExtraDps (Num 5)) (Seq (Eval ["mpsci.distributions.hypsecant._validate_args"]) (Seq (Eval []) (Seq (Eval []) (Return)))));
  (** mpsci/distributions/hypsecant.py:69-79 *)
  ("mpsci.distributions.hypsecant.invcdf", With (ExtraDps (Num 5)) (Seq (Eval ["mpsci.distributions._common._validate_loc_scale"]) (Seq (Eval ["mpsci.distributions._common._validate_p"]) (Seq (Eval []) (Return)))));
  (** mpsci/distributions/hypsecant.py:82-89 *)
  ("mpsci.distributions.hypsecant.invsf", With (ExtraDps (Num 5)) (Seq (Eval ["mpsci.distributions._common._validate_loc_scale"]) (Seq (Eval ["mpsci.distributions._common._validate_p"]) (Seq (Eval []) (Return)))));
  (** mpsci/distributions/hypsecant.py:92-97 *)
  ("mpsci.distributions.hypsecant.support", Seq (Eval ["mpsci.distributions._common._validate_loc_scale"]) (Seq (Eval []) (Return)));
  (** mpsci/distributions/hypsecant.py:100-105 *)
  ("mpsci.distributions.hypsecant.mean", Seq (Eval ["mpsci.distributions._common._validate_loc_scale"]) (Seq (Eval []) (Return)));
  (** mpsci/distributions/hypsecant.py:108-115 *)
  ("mpsci.distributions.hypsecant.mode", Seq (Eval ["mpsci.distributions._common._validate_loc_scale"]) (Seq (Eval []) (Return)));
  (** mpsci/distributions/hypsecant.py:118-124 *)
  ("mpsci.distributions.hypsecant.var", With (ExtraDps (Num 5)) (Seq (Eval ["mpsci.distributions._common._validate_loc_scale"]) (Seq (Eval []) (Return))));
  (** mpsci/distributions/hypsecant.py:127-133 *)
  ("mpsci.distributions.hypsecant.entropy", With (ExtraDps (Num 5)) (Seq (Eval ["mpsci.distributions._common._validate_loc_scale"]) (Seq (Eval []) (Return))));
  (** mpsci/distributions/hypsecant.py:136-145 *)
  ("mpsci.distributions.hypsecant.nll", With (ExtraDps (Num 5)) (Seq (Eval ["mpsci.distributions._common._validate_loc_scale"]) (Seq (Eval ["mpsci.distributions._common._validate_x_bounds"]) (Seq (Eval ["mpsci.distributions.hypsecant.logpdf"]) (Return)))));
  (** mpsci/distributions/hypsecant.py:169-174 *)
  ("mpsci.distributions.hypsecant.mle.<locals>.mle_eqns", Seq (Eval []) (Seq (Eval []) (Seq (Eval []) (Seq (Eval []) (Return)))));
  (** mpsci/distributions/hypsecant.py:184-185 *)
  ("mpsci.distributions.hypsecant.mle.<locals>.mle_loc_eqn", Seq (Eval []) (Return));
  (** mpsci/distributions/hypsecant.py:199-202 *)
  ("mpsci.distributions.hypsecant.mle.<locals>.mle_scale_eqn", Seq (Eval []) (Seq (Eval []) (Return)));
  (** mpsci/distributions/hypsecant.py:148-209 *)
  ("mpsci.distributions.hypsecant.mle", With (ExtraDps (Num 5)) (Seq (Eval ["mpsci.distributions._common._validate_x_bounds"]) (Seq (Eval []) (Seq (Seq (Eval []) (If (Seq (Eval ["mpsci.stats._basic.mean"]) (Seq (Eval ["mpsci.stats._basic.std"]) (Seq (Eval ["?"; "mpsci.distributions.hypsecant.mle.<locals>.mle_eqns"]) (Seq (Eval []) (Return))))) (Skip))) (Seq (Seq (Eval []) (If (Seq (Eval ["mpsci.stats._basic.mean"]) (Seq (Eval ["mpsci.distributions._common._validate_loc_scale"]) (Seq (Eval ["?"; "mpsci.distributions.hypsecant.mle.<locals>.mle_loc_eqn"]) (Seq (Eval []) (Return))))) (Skip))) (Seq (Seq (Eval []) (If (Seq (Eval []) (Seq (Seq (Eval []) (If (Eval ["mpsci.stats._basic.std"]) (Eval []))) (Seq (Eval ["mpsci.distributions._common._validate_loc_scale"]) (Seq (Eval ["?"; "mpsci.distributions.hypsecant.mle.<locals>.mle_scale_eqn"]) (Seq (Eval []) (Return)))))) (Skip))) (Seq (Eval ["mpsci.distributions._common._validate_loc_scale"]) (Seq (Eval []) (Return)))))))));
  (** mpsci/distributions/hypsecant.py:1-210 *)
  ("mpsci.distributions.hypsecant.<module>", Eval []);
  (** mpsci/distributions/invchi2.py:38-41 *)
  ("mpsci.distributions.invchi2._validate_nu", Seq (Seq (Eval []) (If (Seq (Eval []) (Raise)) (Skip))) (Seq (Eval []) (Return)));
  (** mpsci/distributions/invchi2.py:44-56 *)
  ("mpsci.distributions.invchi2.pdf", With (ExtraDps (Num 5)) (Seq (Eval ["mpsci.distributions.invchi2._validate_nu"]) (Seq (Eval []) (Seq (Seq (Eval []) (If (Seq (Eval []) (Return)) (Skip))) (Seq (Eval []) (Seq (Eval []) (Seq (Eval []) (Return))))))));
  (** mpsci/distributions/invchi2.py:59-71 *)
  ("mpsci.distributions.invchi2.logpdf", With (ExtraDps (Num 5)) (Seq (Eval ["mpsci.distributions.invchi2._validate_nu"]) (Seq (Eval []) (Seq (Seq (Eval []) (If (Seq (Eval []) (Return)) (Skip))) (Seq (Eval []) (Seq (Eval []) (Seq (Eval []) (Return))))))));
  (** mpsci/distributions/invchi2.py:74-84 *)
  ("mpsci.distributions.invchi2.cdf", With (ExtraDps (Num 5)) (Seq (Eval ["mpsci.distributions.invchi2._validate_nu"]) (Seq (Eval []) (Seq (Seq (Eval []) (If (Seq (Eval []) (Return)) (Skip))) (Seq (Eval []) (Seq (Eval []) (Return)))))));
  (** mpsci/distributions/invchi2.py:87-97 *)
  ("mpsci.distributions.invchi2.sf", With (ExtraDps (Num 5)) (Seq (Eval ["mpsci.distributions.invchi2._validate_nu"]) (Seq (Eval []) (Seq (Seq (Eval []) (If (Seq (Eval []) (Return)) (Skip))) (Seq (Eval []) (Seq (Eval []) (Return)))))));
  (** mpsci/distributions/invchi2.py:100-105 *)
  ("mpsci.distributions.invchi2.support", Seq (Eval ["mpsci.distributions.invchi2._validate_nu"]) (Seq (Eval []) (Return)));
  (** mpsci/distributions/invchi2.py:108-117 *)
  ("mpsci.distributions.invchi2.mean", With (ExtraDps (Num 5)) (Seq (Eval ["mpsci.distributions.invchi2._validate_nu"]) (Seq (Eval []) (Return))));
  (** mpsci/distributions/invchi2.py:131-139 *)
  ("mpsci.distributions.invchi2.mode", With (ExtraDps (Num 5)) (Seq (Eval ["mpsci.distributions.invchi2._validate_nu"]) (Seq (Eval []) (Return))));
  (** mpsci/distributions/invchi2.py:142-153 *)
  ("mpsci.distributions.invchi2.var", With (ExtraDps (Num 5)) (Seq (Eval ["mpsci.distributions.invchi2._validate_nu"]) (Seq (Eval []) (Return))));
  (** mpsci/distributions/invchi2.py:1-164 *)
  ("mpsci.distributions.invchi2.<module>", Seq (Eval []) (Seq (Eval []) (Seq (Eval []) (Seq (Eval []) (Eval [])))));
  (** mpsci/distributions/invgamma.py:26-34 *)
  ("mpsci.distributions.invgamma._validate_params", Seq (Seq (Eval []) (If (Seq (Eval []) (Raise)) (Skip))) (Seq (Seq (Eval []) (If (Seq (Eval []) (Raise)) (Skip))) (Seq (Eval []) (Seq (Eval []) (Seq (Eval []) (Seq (Eval []) (Return)))))));
  (** mpsci/distributions/invgamma.py:37-46 *)
  ("mpsci.distributions.invgamma.pdf", With (ExtraDps (Num 5)) (Seq (Eval ["mpsci.distributions.invgamma._validate_params"]) (Seq (Eval []) (Seq (Seq (Eval []) (If (Seq (Eval []) (Return)) (Skip))) (Seq (Eval ["mpsci.distributions.invgamma.logpdf"]) (Return))))));
  (** mpsci/distributions/invgamma.py:49-60 *)
  ("mpsci.distributions.invgamma.logpdf", With (ExtraDps (Num 5)) (Seq (Eval ["mpsci.distributions.invgamma._validate_params"]) (Seq (Eval []) (Seq (Seq (Eval []) (If (Seq (Eval []) (Return)) (Skip))) (Seq (Eval []) (Seq (Eval []) (Seq (Eval []) (Return))))))));
  (** mpsci/distributions/invgamma.py:63-73 *)
  ("mpsci.distributions.invgamma.cdf", With (ExtraDps (Num 5)) (Seq (Eval ["mpsci.distributions.invgamma._validate_params"]) (Seq (Eval []) (Seq (Seq (Eval []) (If (Seq (Eval []) (Return)) (Skip))) (Seq (Eval []) (Seq (Eval []) (Return)))))));
  (** mpsci/distributions/invgamma.py:76-95 *)
  ("mpsci.distributions.invgamma.invcdf", With (ExtraDps (Num 5)) (Seq (Eval ["mpsci.distributions.invgamma._validate_params"]) (Seq (Eval ["mpsci.distributions._common._validate_p"]) (Seq (Seq (Eval []) (If (Seq (Eval []) (Return)) (Skip))) (Seq (Seq (Eval []) (If (Seq (Eval []) (Return)) (Skip))) (Seq (Eval ["mpsci.distributions.invgamma.mode"]) (Seq (Seq (Eval []) (Loop (Seq (Seq (Eval ["mpsci.distributions.invgamma.cdf"; "mpsci.distributions.invgamma.pdf"]) (Seq (Seq (Eval []) (If (Break) (Skip))) (Eval []))) (Eval [])))) (Seq (Eval []) (Return)))))))));
  (** mpsci/distributions/invgamma.py:98-108 *)
  ("mpsci.distributions.invgamma.sf", With (ExtraDps (Num 5)) (Seq (Eval ["mpsci.distributions.invgamma._validate_params"]) (Seq (Eval []) (Seq (Seq (Eval []) (If (Seq (Eval []) (Return)) (Skip))) (Seq (Eval []) (Seq (Eval []) (Return)))))));
  (** mpsci/distributions/invgamma.py:111-129 *)
  ("mpsci.distributions.invgamma.invsf", With (ExtraDps (Num 5)) (Seq (Eval ["mpsci.distributions.invgamma._validate_params"]) (Seq (Eval ["mpsci.distributions._common._validate_p"]) (Seq (Seq (Eval []) (If (Seq (Eval []) (Return)) (Skip))) (Seq (Seq (Eval []) (If (Seq (Eval []) (Return)) (Skip))) (Seq (Eval ["mpsci.distributions.invgamma.mode"]) (Seq (Seq (Eval []) (Loop (Seq (Seq (Eval ["mpsci.distributions.invgamma.sf"; "mpsci.distributions.invgamma.pdf"]) (Seq (Seq (Eval []) (If (Break) (Skip))) (Eval []))) (Eval [])))) (Seq (Eval []) (Return)))))))));
  (** mpsci/distributions/invgamma.py:132-138 *)
  ("mpsci.distributions.invgamma.support", With (ExtraDps (Num 5)) (Seq (Eval ["mpsci.distributions.invgamma._validate_params"]) (Seq (Eval []) (Return))));
  (** mpsci/distributions/invgamma.py:141-149 *)
  ("mpsci.distributions.invgamma.mean", With (ExtraDps (Num 5)) (Seq (Eval ["mpsci.distributions.invgamma._validate_params"]) (Seq (Eval []) (Return))));
  (** mpsci/distributions/invgamma.py:152-158 *)
  ("mpsci.distributions.invgamma.mode", With (ExtraDps (Num 5)) (Seq (Eval ["mpsci.distributions.invgamma._validate_params"]) (Seq (Eval []) (Return))));
  (** mpsci/distributions/invgamma.py:161-169 *)
  ("mpsci.distributions.invgamma.var", With (ExtraDps (Num 5)) (Seq (Eval ["mpsci.distributions.invgamma._validate_params"]) (Seq (Eval []) (Return))));
  (** mpsci/distributions/invgamma.py:172-178 *)
  ("mpsci.distributions.invgamma.skewness", With (ExtraDps (Num 5)) (Seq (Eval ["mpsci.distributions.invgamma._validate_params"]) (Seq (Eval []) (Return))));
  (** mpsci/distributions/invgamma.py:181-187 *)
  ("mpsci.distributions.invgamma.kurtosis", With (ExtraDps (Num 5)) (Seq (Eval ["mpsci.distributions.invgamma._validate_params"]) (Seq (Eval []) (Return))));
  (** mpsci/distributions/invgamma.py:190-196 *)
  ("mpsci.distributions.invgamma.entropy", With (ExtraDps (Num 5)) (Seq (Eval ["mpsci.distributions.invgamma._validate_params"]) (Seq (Eval []) (Return))))
].
Definition table10 : program := [
  (** mpsci/distributions/invgamma.py:199-205 *)
  ("mpsci.distributions.invgamma._standard_noncentral_moment", With (ExtraDps (Num 5)) (Seq (Seq (Eval []) (If (Seq (Eval []) (Return)) (Skip))) (Seq (Seq (Eval []) (If (Seq (Eval []) (Return)) (Skip))) (Seq (Eval []) (Return)))));
  (** mpsci/distributions/invgamma.py:208-226 *)
  ("mpsci.distributions.invgamma.noncentral_moment", With (ExtraDps (Num 5)) (Seq (Eval ["mpsci.distributions._common._validate_moment_n"]) (Seq (Eval ["mpsci.distributions.invgamma._validate_params"]) (Seq (Seq (Eval []) (If (Seq (Eval []) (Return)) (Skip))) (Seq (Eval ["mpsci.distributions.invgamma._standard_noncentral_moment"]) (Seq (Eval []) (Return)))))));
  (** mpsci/distributions/invgamma.py:1-227 *)
  ("mpsci.distributions.invgamma.<module>", Eval []);
  (** mpsci/distributions/invgauss.py:47-55 *)
  ("mpsci.distributions.invgauss._validate_params", Seq (Seq (Eval []) (If (Seq (Eval []) (Raise)) (Skip))) (Seq (Seq (Eval []) (If (Seq (Eval []) (Raise)) (Skip))) (Seq (Eval []) (Seq (Eval []) (Seq (Eval []) (Seq (Eval []) (Return)))))));
  (** mpsci/distributions/invgauss.py:58-71 *)
  ("mpsci.distributions.invgauss.pdf", With (ExtraDps (Num 5)) (Seq (Eval ["mpsci.distributions.invgauss._validate_params"]) (Seq (Eval []) (Seq (Seq (Eval []) (If (Seq (Eval []) (Return)) (Skip))) (Seq (Eval []) (Seq (Eval []) (Seq (Eval []) (Seq (Eval []) (Seq (Eval []) (Return))))))))));
  (** mpsci/distributions/invgauss.py:74-87 *)
  ("mpsci.distributions.invgauss.logpdf", With (ExtraDps (Num 5)) (Seq (Eval ["mpsci.distributions.invgauss._validate_params"]) (Seq (Eval []) (Seq (Seq (Eval []) (If (Seq (Eval []) (Return)) (Skip))) (Seq (Eval []) (Seq (Eval []) (Seq (Eval []) (Seq (Eval []) (Return)))))))));
  (** mpsci/distributions/invgauss.py:90-102 *)
  ("mpsci.distributions.invgauss.cdf", With (ExtraDps (Num 5)) (Seq (Eval ["mpsci.distributions.invgauss._validate_params"]) (Seq (Eval []) (Seq (Seq (Eval []) (If (Seq (Eval []) (Return)) (Skip))) (Seq (Eval []) (Seq (Eval []) (Seq (Eval []) (Seq (Eval []) (Return)))))))));
  (** mpsci/distributions/invgauss.py:105-117 *)
  ("mpsci.distributions.invgauss.logcdf", With (ExtraDps (Num 5)) (Seq (Eval ["mpsci.distributions.invgauss._validate_params"]) (Seq (Eval []) (Seq (Seq (Eval []) (If (Seq (Eval []) (Return)) (Skip))) (Seq (Eval []) (Seq (Eval []) (Seq (Eval []) (Seq (Eval []) (Return)))))))));
  (** mpsci/distributions/invgauss.py:120-138 *)
  ("mpsci.distributions.invgauss.invcdf", With (ExtraDps (Num 5)) (Seq (Eval ["mpsci.distributions.invgauss._validate_params"]) (Seq (Eval ["mpsci.distributions._common._validate_p"]) (Seq (Seq (Eval []) (If (Seq (Eval []) (Return)) (Skip))) (Seq (Seq (Eval []) (If (Seq (Eval []) (Return)) (Skip))) (Seq (Eval ["mpsci.distributions.invgauss.mode"]) (Seq (Seq (Eval []) (Loop (Seq (Seq (Eval ["mpsci.distributions.invgauss.cdf"; "mpsci.distributions.invgauss.pdf"]) (Seq (Seq (Eval []) (If (Break) (Skip))) (Eval []))) (Eval [])))) (Seq (Eval []) (Return)))))))));
  (** mpsci/distributions/invgauss.py:141-153 *)
  ("mpsci.distributions.invgauss.sf", With (ExtraDps (Num 5)) (Seq (Eval ["mpsci.distributions.invgauss._validate_params"]) (Seq (Eval []) (Seq (Seq (Eval []) (If (Seq (Eval []) (Return)) (Skip))) (Seq (Eval []) (Seq (Eval []) (Seq (Eval []) (Seq (Eval []) (Return)))))))));
  (** mpsci/distributions/invgauss.py:156-168 *)
  ("mpsci.distributions.invgauss.logsf", With (ExtraDps (Num 5)) (Seq (Eval ["mpsci.distributions.invgauss._validate_params"]) (Seq (Eval []) (Seq (Seq (Eval []) (If (Seq (Eval []) (Return)) (Skip))) (Seq (Eval []) (Seq (Eval []) (Seq (Eval []) (Seq (Eval []) (Return)))))))));
  (** mpsci/distributions/invgauss.py:171-189 *)
  ("mpsci.distributions.invgauss.invsf", With (ExtraDps (Num 5)) (Seq (Eval ["mpsci.distributions.invgauss._validate_params"]) (Seq (Eval ["mpsci.distributions._common._validate_p"]) (Seq (Seq (Eval []) (If (Seq (Eval []) (Return)) (Skip))) (Seq (Seq (Eval []) (If (Seq (Eval []) (Return)) (Skip))) (Seq (Eval ["mpsci.distributions.invgauss.mode"]) (Seq (Seq (Eval []) (Loop (Seq (Seq (Eval ["mpsci.distributions.invgauss.sf"; "mpsci.distributions.invgauss.pdf"]) (Seq (Seq (Eval []) (If (Break) (Skip))) (Eval []))) (Eval [])))) (Seq (Eval []) (Return)))))))));
  (** mpsci/distributions/invgauss.py:192-198 *)
  ("mpsci.distributions.invgauss.support", With (ExtraDps (Num 5)) (Seq (Eval ["mpsci.distributions.invgauss._validate_params"]) (Seq (Eval []) (Return))));
  (** mpsci/distributions/invgauss.py:201-207 *)
  ("mpsci.distributions.invgauss.mean", With (ExtraDps (Num 5)) (Seq (Eval ["mpsci.distributions.invgauss._validate_params"]) (Seq (Eval []) (Return))));
  (** mpsci/distributions/invgauss.py:210-216 *)
  ("mpsci.distributions.invgauss.median", With (ExtraDps (Num 5)) (Seq (Eval ["mpsci.distributions.invgauss._validate_params"]) (Seq (Eval ["mpsci.distributions.invgauss.invcdf"]) (Return))));
  (** mpsci/distributions/invgauss.py:219-229 *)
  ("mpsci.distributions.invgauss.mode", With (ExtraDps (Num 5)) (Seq (Eval ["mpsci.distributions.invgauss._validate_params"]) (Seq (Eval []) (Seq (Eval []) (Seq (Eval []) (Return))))));
  (** mpsci/distributions/invgauss.py:232-238 *)
  ("mpsci.distributions.invgauss.var", With (ExtraDps (Num 5)) (Seq (Eval ["mpsci.distributions.invgauss._validate_params"]) (Seq (Eval []) (Return))));
  (** mpsci/distributions/invgauss.py:241-249 *)
  ("mpsci.distributions.invgauss.entropy", With (ExtraDps (Num 5)) (Seq (Eval ["mpsci.distributions.invgauss._validate_params"]) (Seq (Eval []) (Seq (Eval []) (Seq (Eval []) (Return))))));
  (** mpsci/distributions/invgauss.py:252-261 *)
  ("mpsci.distributions.invgauss._standard_noncentral_moment", With (ExtraDps (Num 5)) (Seq (Seq (Eval []) (If (Seq (Eval []) (Return)) (Skip))) (Seq (Eval []) (Seq (Eval []) (Return)))));
  (** mpsci/distributions/invgauss.py:264-282 *)
  ("mpsci.distributions.invgauss.noncentral_moment", With (ExtraDps (Num 5)) (Seq (Eval ["mpsci.distributions._common._validate_moment_n"]) (Seq (Eval ["mpsci.distributions.invgauss._validate_params"]) (Seq (Seq (Eval []) (If (Seq (Eval []) (Return)) (Skip))) (Seq (Eval ["mpsci.distributions.invgauss._standard_noncentral_moment"]) (Seq (Eval []) (Return)))))));
  (** mpsci/distributions/invgauss.py:1-283 *)
  ("mpsci.distributions.invgauss.<module>", Eval []);
  (** mpsci/distributions/kumaraswamy.py:34-38 *)
  ("mpsci.distributions.kumaraswamy._validate_a_b", Seq (Seq (Eval []) (If (Seq (Eval []) (Raise)) (Skip))) (Seq (Eval []) (Return)));
  (** mpsci/distributions/kumaraswamy.py:41-55 *)
  ("mpsci.distributions.kumaraswamy.pdf", With (ExtraDps (Num 5)) (Seq (Eval ["mpsci.distributions.kumaraswamy._validate_a_b"]) (Seq (Eval []) (Seq (Seq (Eval []) (If (Seq (Eval []) (Return)) (Skip))) (Seq (Seq (Eval []) (If (Seq (Eval []) (Return)) (Skip))) (Seq (Seq (Eval []) (If (Seq (Eval []) (Return)) (Skip))) (Seq (Eval []) (Return))))))));
  (** mpsci/distributions/kumaraswamy.py:58-68 *)
  ("mpsci.distributions.kumaraswamy.logpdf", With (ExtraDps (Num 5)) (Seq (Eval ["mpsci.distributions.kumaraswamy._validate_a_b"]) (Seq (Eval []) (Seq (Seq (Eval []) (If (Seq (Eval []) (Return)) (Skip))) (Seq (Eval []) (Return))))));
  (** mpsci/distributions/kumaraswamy.py:71-82 *)
  ("mpsci.distributions.kumaraswamy.cdf", With (ExtraDps (Num 5)) (Seq (Eval ["mpsci.distributions.kumaraswamy._validate_a_b"]) (Seq (Eval []) (Seq (Seq (Eval []) (If (Seq (Eval []) (Return)) (Skip))) (Seq (Seq (Eval []) (If (Seq (Eval []) (Return)) (Skip))) (Seq (Eval []) (Return)))))));
  (** mpsci/distributions/kumaraswamy.py:85-96 *)
  ("mpsci.distributions.kumaraswamy.sf", With (ExtraDps (Num 5)) (Seq (Eval ["mpsci.distributions.kumaraswamy._validate_a_b"]) (Seq (Eval []) (Seq (Seq (Eval []) (If (Seq (Eval []) (Return)) (Skip))) (Seq (Seq (Eval []) (If (Seq (Eval []) (Return)) (Skip))) (Seq (Eval []) (Return)))))));
  (** mpsci/distributions/kumaraswamy.py:99-110 *)
  ("mpsci.distributions.kumaraswamy.invcdf", With (ExtraDps (Num 5)) (Seq (Eval ["mpsci.distributions.kumaraswamy._validate_a_b"]) (Seq (Eval ["mpsci.distributions._common._validate_p"]) (Seq (Seq (Eval []) (If (Seq (Eval []) (Return)) (Skip))) (Seq (Seq (Eval []) (If (Seq (Eval []) (Return)) (Skip))) (Seq (Eval ["mpsci.fun._powm1.inv_powm1"]) (Return)))))));
  (** mpsci/distributions/kumaraswamy.py:113-124 *)
  ("mpsci.distributions.kumaraswamy.invsf", With (ExtraDps (Num 5)) (Seq (Eval ["mpsci.distributions.kumaraswamy._validate_a_b"]) (Seq (Eval ["mpsci.distributions._common._validate_p"]) (Seq (Seq (Eval []) (If (Seq (Eval []) (Return)) (Skip))) (Seq (Seq (Eval []) (If (Seq (Eval []) (Return)) (Skip))) (Seq (Eval ["mpsci.fun._powm1.inv_powm1"]) (Return)))))));
  (** mpsci/distributions/kumaraswamy.py:127-131 *)
  ("mpsci.distributions.kumaraswamy.support", Seq (Eval []) (Return));
  (** mpsci/distributions/kumaraswamy.py:134-140 *)
  ("mpsci.distributions.kumaraswamy.mean", With (ExtraDps (Num 5)) (Seq (Eval ["mpsci.distributions.kumaraswamy._validate_a_b"]) (Seq (Eval []) (Return))));
  (** mpsci/distributions/kumaraswamy.py:143-149 *)
  ("mpsci.distributions.kumaraswamy.median", With (ExtraDps (Num 5)) (Seq (Eval ["mpsci.distributions.kumaraswamy._validate_a_b"]) (Seq (Eval ["mpsci.fun._powm1.inv_powm1"]) (Return))));
  (** mpsci/distributions/kumaraswamy.py:152-173 *)
  ("mpsci.distributions.kumaraswamy.mode", With (ExtraDps (Num 5)) (Seq (Eval ["mpsci.distributions.kumaraswamy._validate_a_b"]) (Seq (Seq (Eval []) (If (Seq (Eval []) (Return)) (Skip))) (Seq (Seq (Eval []) (If (Seq (Eval []) (Return)) (Skip))) (Seq (Eval []) (Return))))));
  (** mpsci/distributions/kumaraswamy.py:176-182 *)
  ("mpsci.distributions.kumaraswamy.var", With (ExtraDps (Num 5)) (Seq (Eval ["mpsci.distributions.kumaraswamy._validate_a_b"]) (Seq (Eval ["mpsci.distributions.kumaraswamy.mean"]) (Return))));
  (** mpsci/distributions/kumaraswamy.py:185-196 *)
  ("mpsci.distributions.kumaraswamy.noncentral_moment", With (ExtraDps (Num 5)) (Seq (Eval ["mpsci.distributions._common._validate_moment_n"]) (Seq (Eval ["mpsci.distributions.kumaraswamy._validate_a_b"]) (Seq (Seq (Eval []) (If (Seq (Eval []) (Return)) (Skip))) (Seq (Eval []) (Return))))));
  (** mpsci/distributions/kumaraswamy.py:199-208 *)
  ("mpsci.distributions.kumaraswamy.skewness", With (ExtraDps (Num 5)) (Seq (Eval ["mpsci.distributions.kumaraswamy._validate_a_b"]) (Seq (Eval ["mpsci.distributions.kumaraswamy.mean"]) (Seq (Eval ["mpsci.distributions.kumaraswamy.var"]) (Seq (Eval ["mpsci.distributions.kumaraswamy.noncentral_moment"]) (Seq (Eval []) (Return)))))));
  (** mpsci/distributions/kumaraswamy.py:211-212 *)
  ("mpsci.distributions.kumaraswamy._harmonic_number", Seq (Eval []) (Return));
  (** mpsci/distributions/kumaraswamy.py:215-222 *)
  ("mpsci.distributions.kumaraswamy.entropy", With (ExtraDps (Num 5)) (Seq (Eval ["mpsci.distributions.kumaraswamy._validate_a_b"]) (Seq (Eval ["mpsci.distributions.kumaraswamy._harmonic_number"]) (Return))));
  (** mpsci/distributions/kumaraswamy.py:225-235 *)
  ("mpsci.distributions.kumaraswamy.nll", With (ExtraDps (Num 5)) (Seq (Eval ["mpsci.distributions._common._validate_x_bounds"]) (Seq (Eval ["mpsci.distributions.kumaraswamy._validate_a_b"]) (Seq (Eval ["mpsci.distributions.kumaraswamy.logpdf"]) (Return)))));
  (** mpsci/distributions/kumaraswamy.py:238-242 *)
  ("mpsci.distributions.kumaraswamy._mle_a_eqn", Seq (Eval []) (Seq (Eval []) (Seq (Eval []) (Seq (Eval []) (Return)))));
  (** mpsci/distributions/kumaraswamy.py:245-248 *)
  ("mpsci.distributions.kumaraswamy._mle_a_eqn_b_fixed", Seq (Eval []) (Seq (Eval []) (Seq (Eval []) (Return))));
  (** mpsci/distributions/kumaraswamy.py:277-277 *)
  ("mpsci.distributions.kumaraswamy.mle.<lambda>@277", Eval ["mpsci.distributions.kumaraswamy._mle_a_eqn"]);
  (** mpsci/distributions/kumaraswamy.py:289-289 *)
  ("mpsci.distributions.kumaraswamy.mle.<lambda>@289", Eval ["mpsci.distributions.kumaraswamy._mle_a_eqn_b_fixed"]);
  (** mpsci/distributions/kumaraswamy.py:251-294 *)
  ("mpsci.distributions.kumaraswamy.mle", With (ExtraDps (Num 5)) (Seq (Eval ["mpsci.distributions._common._validate_x_bounds"]) (Seq (Eval []) (Seq (Eval []) (Seq (Seq (Eval []) (If (Seq (Seq (Eval []) (If (Eval []) (Eval []))) (Seq (Eval ["?"; "mpsci.distributions.kumaraswamy.mle.<lambda>@277"]) (Seq (Eval []) (Seq (Eval []) (Return))))) (Skip))) (Seq (Seq (Eval []) (If (Seq (Eval ["mpsci.distributions.kumaraswamy._validate_a_b"]) (Seq (Eval []) (Return))) (Skip))) (Seq (Seq (Eval []) (If (Seq (Eval ["mpsci.distributions.kumaraswamy._validate_a_b"]) (Seq (Seq (Eval []) (If (Eval []) (Eval []))) (Seq (Eval ["?"; "mpsci.distributions.kumaraswamy.mle.<lambda>@289"]) (Seq (Eval []) (Return))))) (Skip))) (Seq (Eval ["mpsci.distributions.kumaraswamy._validate_a_b"]) (Seq (Eval []) (Seq (Eval []) (Return)))))))))));
  (** mpsci/distributions/kumaraswamy.py:1-295 *)
  ("mpsci.distributions.kumaraswamy.<module>", Eval []);
  (** mpsci/distributions/laplace.py:22-29 *)
  ("mpsci.distributions.laplace.pdf", With (ExtraDps (Num 5)) (Seq (Eval ["mpsci.distributions._common._validate_loc_scale"]) (Seq (Eval []) (Seq (Eval []) (Return)))));
  (** mpsci/distributions/laplace.py:32-39 *)
  ("mpsci.distributions.laplace.logpdf", With (ExtraDps (Num 5)) (Seq (Eval ["mpsci.distributions._common._validate_loc_scale"]) (Seq (Eval []) (Seq (Eval []) (Return)))));
  (** mpsci/distributions/laplace.py:42-54 *)
  ("mpsci.distributions.laplace.cdf", With (ExtraDps (Num 5)) (Seq (Eval ["mpsci.distributions._common._validate_loc_scale"]) (Seq (Eval []) (Seq (Eval []) (Seq (Seq (Eval []) (If (Eval []) (Eval []))) (Seq (Eval []) (Return)))))));
  (** mpsci/distributions/laplace.py:57-69 *)
  ("mpsci.distributions.laplace.sf", With (ExtraDps (Num 5)) (Seq (Eval ["mpsci.distributions._common._validate_loc_scale"]) (Seq (Eval []) (Seq (Eval []) (Seq (Seq (Eval []) (If (Eval []) (Eval []))) (Seq (Eval []) (Return)))))));
  (** mpsci/distributions/laplace.py:72-101 *)
  ("mpsci.distributions.laplace.interval_prob", With (ExtraDps (Num 5)) (Seq (Eval ["mpsci.distributions._common._validate_loc_scale"]) (Seq (Eval []) (Seq (Eval []) (Seq (Seq (Eval []) (If (Seq (Eval []) (Raise)) (Skip))) (Seq (Seq (Eval []) (If (Seq (Eval []) (Return)) (Skip))) (Seq (Eval []) (Seq (Eval []) (Seq (Eval []) (Seq (Eval []) (If (Seq (Eval []) (Return)) (Seq (Eval []) (If (Seq (Eval []) (Return)) (Seq (Eval []) (Return)))))))))))))));
  (** mpsci/distributions/laplace.py:104-118 *)
  ("mpsci.distributions.laplace.invcdf", With (ExtraDps (Num 5)) (Seq (Eval ["mpsci.distributions._common._validate_loc_scale"]) (Seq (Eval []) (Seq (Seq (Eval []) (If (Eval []) (Eval []))) (Seq (Eval []) (Return))))));
  (** mpsci/distributions/laplace.py:121-132 *)
  ("mpsci.distributions.laplace.invsf", With (ExtraDps (Num 5)) (Seq (Eval ["mpsci.distributions._common._validate_loc_scale"]) (Seq (Eval []) (Seq (Seq (Eval []) (If (Eval []) (Eval []))) (Seq (Eval []) (Return))))));
  (** mpsci/distributions/laplace.py:135-141 *)
  ("mpsci.distributions.laplace.support", With (ExtraDps (Num 5)) (Seq (Eval ["mpsci.distributions._common._validate_loc_scale"]) (Seq (Eval []) (Return))));
  (** mpsci/distributions/laplace.py:144-150 *)
  ("mpsci.distributions.laplace.mean", With (ExtraDps (Num 5)) (Seq (Eval ["mpsci.distributions._common._validate_loc_scale"]) (Seq (Eval []) (Return))));
  (** mpsci/distributions/laplace.py:153-160 *)
  ("mpsci.distributions.laplace.mode", Seq (Eval ["mpsci.distributions._common._validate_loc_scale"]) (Seq (Eval []) (Return)));
  (** mpsci/distributions/laplace.py:163-169 *)
  ("mpsci.distributions.laplace.var", With (ExtraDps (Num 5)) (Seq (Eval ["mpsci.distributions._common._validate_loc_scale"]) (Seq (Eval []) (Return))));
  (** mpsci/distributions/laplace.py:172-224 *)
  ("mpsci.distributions.laplace.mle", With (ExtraDps (Num 5)) (Seq (Seq (Eval []) (If (Seq (Eval []) (Eval ["mpsci.distributions._common._seq_to_mp"])) (Seq (Eval ["mpsci.distributions._common._seq_to_mp"]) (Seq (Eval []) (Seq (Eval []) (Seq (Eval []) (If (Eval []) (Eval [])))))))) (Seq (Seq (Eval []) (If (Seq (Seq (Eval []) (If (Seq (Eval []) (Raise)) (Skip))) (Eval [])) (Eval ["mpsci.stats._basic.mean"]))) (Seq (Eval []) (Return)))));
  (** mpsci/distributions/laplace.py:227-238 *)
  ("mpsci.distributions.laplace.mom", With (ExtraDps (Num 5)) (Seq (Eval ["mpsci.stats._basic.mean"]) (Seq (Eval ["mpsci.stats._basic.mean"]) (Seq (Eval []) (Return)))));
  (** mpsci/distributions/laplace.py:1-239 *)
  ("mpsci.distributions.laplace.<module>", Eval []);
  (** mpsci/distributions/levy.py:24-26 *)
  ("mpsci.distributions.levy._erfcinv", With (ExtraDps (Num 5)) (Seq (Eval []) (Return)));
  (** mpsci/distributions/levy.py:29-41 *)
  ("mpsci.distributions.levy.logpdf", With (ExtraDps (Num 5)) (Seq (Eval []) (Seq (Eval ["mpsci.distributions._common._validate_loc_scale"]) (Seq (Seq (Eval []) (If (Seq (Eval []) (Return)) (Skip))) (Seq (Eval []) (Seq (Eval []) (Seq (Eval []) (Seq (Eval []) (Return)))))))))
].
Definition table11 : program := [
  (** mpsci/distributions/levy.py:44-49 *)
  ("mpsci.distributions.levy.pdf", With (ExtraDps (Num 5)) (Seq (Eval ["mpsci.distributions.levy.logpdf"]) (Return)));
  (** mpsci/distributions/levy.py:52-62 *)
  ("mpsci.distributions.levy.cdf", With (ExtraDps (Num 5)) (Seq (Eval []) (Seq (Eval ["mpsci.distributions._common._validate_loc_scale"]) (Seq (Seq (Eval []) (If (Seq (Eval []) (Return)) (Skip))) (Seq (Eval []) (Seq (Eval []) (Return)))))));
  (** mpsci/distributions/levy.py:65-72 *)
  ("mpsci.distributions.levy.invcdf", With (ExtraDps (Num 5)) (Seq (Eval ["mpsci.distributions._common._validate_p"]) (Seq (Eval ["mpsci.distributions._common._validate_loc_scale"]) (Seq (Eval ["mpsci.distributions.levy._erfcinv"]) (Return)))));
  (** mpsci/distributions/levy.py:75-85 *)
  ("mpsci.distributions.levy.sf", With (ExtraDps (Num 5)) (Seq (Eval []) (Seq (Eval ["mpsci.distributions._common._validate_loc_scale"]) (Seq (Seq (Eval []) (If (Seq (Eval []) (Return)) (Skip))) (Seq (Eval []) (Seq (Eval []) (Return)))))));
  (** mpsci/distributions/levy.py:88-95 *)
  ("mpsci.distributions.levy.invsf", With (ExtraDps (Num 5)) (Seq (Eval ["mpsci.distributions._common._validate_p"]) (Seq (Eval ["mpsci.distributions._common._validate_loc_scale"]) (Seq (Eval []) (Return)))));
  (** mpsci/distributions/levy.py:98-104 *)
  ("mpsci.distributions.levy.support", Seq (Eval ["mpsci.distributions._common._validate_p"]) (Seq (Eval ["mpsci.distributions._common._validate_loc_scale"]) (Seq (Eval []) (Return))));
  (** mpsci/distributions/levy.py:1-105 *)
  ("mpsci.distributions.levy.<module>", Eval []);
  (** mpsci/distributions/loggamma.py:28-33 *)
  ("mpsci.distributions.loggamma._validate_k_theta", Seq (Seq (Eval []) (If (Seq (Eval []) (Raise)) (Skip))) (Seq (Seq (Eval []) (If (Seq (Eval []) (Raise)) (Skip))) (Seq (Eval []) (Return))));
  (** mpsci/distributions/loggamma.py:36-47 *)
  ("mpsci.distributions.loggamma.pdf", With (ExtraDps (Num 5)) (Seq (Eval []) (Seq (Eval ["mpsci.distributions.loggamma._validate_k_theta"]) (Seq (Eval []) (Seq (Eval []) (Return))))));
  (** mpsci/distributions/loggamma.py:50-61 *)
  ("mpsci.distributions.loggamma.logpdf", With (ExtraDps (Num 5)) (Seq (Eval []) (Seq (Eval ["mpsci.distributions.loggamma._validate_k_theta"]) (Seq (Eval []) (Seq (Eval []) (Return))))));
  (** mpsci/distributions/loggamma.py:64-75 *)
  ("mpsci.distributions.loggamma.cdf", With (ExtraDps (Num 5)) (Seq (Eval []) (Seq (Eval ["mpsci.distributions.loggamma._validate_k_theta"]) (Seq (Eval []) (Seq (Eval []) (Return))))));
  (** mpsci/distributions/loggamma.py:94-94 *)
  ("mpsci.distributions.loggamma.invcdf.<lambda>@94", Eval ["mpsci.distributions.loggamma.cdf"]);
  (** mpsci/distributions/loggamma.py:95-95 *)
  ("mpsci.distributions.loggamma.invcdf.<lambda>@95", Eval ["mpsci.distributions.loggamma.cdf"]);
  (** mpsci/distributions/loggamma.py:78-96 *)
  ("mpsci.distributions.loggamma.invcdf", With (ExtraDps (Num 5)) (Seq (Eval ["mpsci.distributions._common._validate_p"]) (Seq (Seq (Eval []) (If (Seq (Eval []) (Return)) (Skip))) (Seq (Seq (Eval []) (If (Seq (Eval []) (Return)) (Skip))) (Seq (Eval ["mpsci.distributions.loggamma._validate_k_theta"]) (Seq (Eval ["mpsci.distributions._common._find_bracket"; "mpsci.distributions.loggamma.invcdf.<lambda>@94"]) (Seq (Eval ["?"; "mpsci.distributions.loggamma.invcdf.<lambda>@95"]) (Seq (Eval []) (Return)))))))));
  (** mpsci/distributions/loggamma.py:99-110 *)
  ("mpsci.distributions.loggamma.sf", With (ExtraDps (Num 5)) (Seq (Eval []) (Seq (Eval ["mpsci.distributions.loggamma._validate_k_theta"]) (Seq (Eval []) (Seq (Eval []) (Return))))));
  (** mpsci/distributions/loggamma.py:127-127 *)
  ("mpsci.distributions.loggamma.invsf.<lambda>@127", Eval ["mpsci.distributions.loggamma.sf"]);
  (** mpsci/distributions/loggamma.py:128-128 *)
  ("mpsci.distributions.loggamma.invsf.<lambda>@128", Eval ["mpsci.distributions.loggamma.sf"]);
  (** mpsci/distributions/loggamma.py:113-129 *)
  ("mpsci.distributions.loggamma.invsf", With (ExtraDps (Num 5)) (Seq (Eval ["mpsci.distributions._common._validate_p"]) (Seq (Seq (Eval []) (If (Seq (Eval []) (Return)) (Skip))) (Seq (Seq (Eval []) (If (Seq (Eval []) (Return)) (Skip))) (Seq (Eval ["mpsci.distributions.loggamma._validate_k_theta"]) (Seq (Eval ["mpsci.distributions._common._find_bracket"; "mpsci.distributions.loggamma.invsf.<lambda>@127"]) (Seq (Eval ["?"; "mpsci.distributions.loggamma.invsf.<lambda>@128"]) (Seq (Eval []) (Return)))))))));
  (** mpsci/distributions/loggamma.py:132-157 *)
  ("mpsci.distributions.loggamma.interval_prob", With (ExtraDps (Num 5)) (Seq (Seq (Eval []) (If (Seq (Eval []) (Raise)) (Skip))) (Seq (Eval []) (Seq (Eval []) (Seq (Eval ["mpsci.distributions.loggamma._validate_k_theta"]) (Seq (Eval []) (Seq (Eval []) (Seq (Eval []) (Return)))))))));
  (** mpsci/distributions/loggamma.py:160-169 *)
  ("mpsci.distributions.loggamma.support", With (ExtraDps (Num 5)) (Seq (Eval ["mpsci.distributions.loggamma._validate_k_theta"]) (Seq (Eval []) (Return))));
  (** mpsci/distributions/loggamma.py:172-181 *)
  ("mpsci.distributions.loggamma.mean", With (ExtraDps (Num 5)) (Seq (Eval ["mpsci.distributions.loggamma._validate_k_theta"]) (Seq (Eval []) (Return))));
  (** mpsci/distributions/loggamma.py:184-190 *)
  ("mpsci.distributions.loggamma.mode", With (ExtraDps (Num 5)) (Seq (Eval ["mpsci.distributions.loggamma._validate_k_theta"]) (Seq (Eval []) (Return))));
  (** mpsci/distributions/loggamma.py:193-202 *)
  ("mpsci.distributions.loggamma.var", With (ExtraDps (Num 5)) (Seq (Eval ["mpsci.distributions.loggamma._validate_k_theta"]) (Seq (Eval []) (Return))));
  (** mpsci/distributions/loggamma.py:205-214 *)
  ("mpsci.distributions.loggamma.skewness", With (ExtraDps (Num 5)) (Seq (Eval ["mpsci.distributions.loggamma._validate_k_theta"]) (Seq (Eval []) (Return))));
  (** mpsci/distributions/loggamma.py:217-226 *)
  ("mpsci.distributions.loggamma.kurtosis", With (ExtraDps (Num 5)) (Seq (Eval ["mpsci.distributions.loggamma._validate_k_theta"]) (Seq (Eval []) (Return))));
  (** mpsci/distributions/loggamma.py:229-238 *)
  ("mpsci.distributions.loggamma.nll", With (ExtraDps (Num 5)) (Seq (Eval ["mpsci.distributions.loggamma._validate_k_theta"]) (Seq (Eval ["mpsci.distributions._common._validate_x_bounds"]) (Seq (Eval ["mpsci.distributions.loggamma.logpdf"]) (Return)))));
  (** mpsci/distributions/loggamma.py:243-248 *)
  ("mpsci.distributions.loggamma._mle_shape_scale.<locals>.scale_eq", Seq (Eval []) (Seq (Eval []) (Seq (Eval []) (Return))));
  (** mpsci/distributions/loggamma.py:241-251 *)
  ("mpsci.distributions.loggamma._mle_shape_scale", Seq (Eval ["?"; "mpsci.distributions.loggamma._mle_shape_scale.<locals>.scale_eq"]) (Seq (Eval []) (Return)));
  (** mpsci/distributions/loggamma.py:256-260 *)
  ("mpsci.distributions.loggamma._mle_scale.<locals>.scale_eq", Seq (Eval []) (Seq (Eval []) (Seq (Eval []) (Return))));
  (** mpsci/distributions/loggamma.py:254-263 *)
  ("mpsci.distributions.loggamma._mle_scale", Seq (Eval ["?"; "mpsci.distributions.loggamma._mle_scale.<locals>.scale_eq"]) (Seq (Eval []) (Return)));
  (** mpsci/distributions/loggamma.py:269-306 *)
  ("mpsci.distributions.loggamma.mle", With (ExtraDps (Num 5)) (Seq (Eval ["mpsci.distributions._common._validate_x_bounds"]) (Seq (Eval ["mpsci.distributions._common.isfixed"]) (Seq (Eval ["mpsci.distributions._common.isfixed"]) (Seq (Eval []) (If (Seq (Eval ["mpsci.distributions.loggamma._validate_k_theta"]) (Seq (Eval []) (Return))) (Seq (Eval []) (If (Seq (Eval []) (Seq (Eval []) (Seq (Eval ["mpsci.distributions.loggamma._validate_k_theta"]) (Seq (Eval ["mpsci.distributions.loggamma._mle_shape_scale"]) (Seq (Eval []) (Return)))))) (Seq (Eval []) (If (Seq (Eval ["mpsci.distributions.loggamma._validate_k_theta"]) (Seq (Eval []) (Seq (Eval ["mpsci.fun._digammainv.digammainv"; "mpsci.stats._basic.mean"]) (Seq (Eval []) (Return))))) (Seq (Eval []) (Seq (Eval ["mpsci.distributions.loggamma._validate_k_theta"]) (Seq (Eval ["mpsci.distributions.loggamma._mle_scale"]) (Seq (Eval []) (Return)))))))))))))));
  (** mpsci/distributions/loggamma.py:1-307 *)
  ("mpsci.distributions.loggamma.<module>", Eval []);
  (** mpsci/distributions/logistic.py:19-27 *)
  ("mpsci.distributions.logistic.pdf", With (ExtraDps (Num 5)) (Seq (Eval ["mpsci.distributions._common._validate_loc_scale"]) (Seq (Eval []) (Seq (Eval []) (Seq (Eval []) (Return))))));
  (** mpsci/distributions/logistic.py:30-38 *)
  ("mpsci.distributions.logistic.logpdf", With (ExtraDps (Num 5)) (Seq (Eval ["mpsci.distributions._common._validate_loc_scale"]) (Seq (Eval []) (Seq (Eval []) (Seq (Eval []) (Return))))));
  (** mpsci/distributions/logistic.py:41-49 *)
  ("mpsci.distributions.logistic.cdf", With (ExtraDps (Num 5)) (Seq (Eval ["mpsci.distributions._common._validate_loc_scale"]) (Seq (Eval []) (Seq (Eval []) (Seq (Eval []) (Return))))));
  (** mpsci/distributions/logistic.py:52-60 *)
  ("mpsci.distributions.logistic.sf", With (ExtraDps (Num 5)) (Seq (Eval ["mpsci.distributions._common._validate_loc_scale"]) (Seq (Eval []) (Seq (Eval []) (Seq (Eval []) (Return))))));
  (** mpsci/distributions/logistic.py:63-73 *)
  ("mpsci.distributions.logistic.invcdf", With (ExtraDps (Num 5)) (Seq (Eval ["mpsci.distributions._common._validate_loc_scale"]) (Seq (Eval ["mpsci.distributions._common._validate_p"]) (Seq (Eval []) (Return)))));
  (** mpsci/distributions/logistic.py:76-83 *)
  ("mpsci.distributions.logistic.invsf", With (ExtraDps (Num 5)) (Seq (Eval ["mpsci.distributions._common._validate_loc_scale"]) (Seq (Eval ["mpsci.distributions._common._validate_p"]) (Seq (Eval []) (Return)))));
  (** mpsci/distributions/logistic.py:86-91 *)
  ("mpsci.distributions.logistic.support", Seq (Eval ["mpsci.distributions._common._validate_loc_scale"]) (Seq (Eval []) (Return)));
  (** mpsci/distributions/logistic.py:94-99 *)
  ("mpsci.distributions.logistic.mean", Seq (Eval ["mpsci.distributions._common._validate_loc_scale"]) (Seq (Eval []) (Return)));
  (** mpsci/distributions/logistic.py:102-107 *)
  ("mpsci.distributions.logistic.mode", Seq (Eval ["mpsci.distributions._common._validate_loc_scale"]) (Seq (Eval []) (Return)));
  (** mpsci/distributions/logistic.py:110-116 *)
  ("mpsci.distributions.logistic.var", With (ExtraDps (Num 5)) (Seq (Eval ["mpsci.distributions._common._validate_loc_scale"]) (Seq (Eval []) (Return))));
  (** mpsci/distributions/logistic.py:119-125 *)
  ("mpsci.distributions.logistic.entropy", With (ExtraDps (Num 5)) (Seq (Eval ["mpsci.distributions._common._validate_loc_scale"]) (Seq (Eval []) (Return))));
  (** mpsci/distributions/logistic.py:128-140 *)
  ("mpsci.distributions.logistic.mom", With (ExtraDps (Num 5)) (Seq (Eval ["mpsci.distributions._common._seq_to_mp"]) (Seq (Eval ["mpsci.stats._basic.mean"]) (Seq (Eval ["mpsci.stats._basic.mean"]) (Seq (Eval []) (Return))))));
  (** mpsci/distributions/logistic.py:143-154 *)
  ("mpsci.distributions.logistic.nll", With (ExtraDps (Num 5)) (Seq (Eval ["mpsci.distributions._common._validate_loc_scale"]) (Seq (Eval ["mpsci.distributions._common._seq_to_mp"]) (Seq (Eval []) (Seq (Eval []) (Seq (Eval []) (Return)))))));
  (** mpsci/distributions/logistic.py:157-159 *)
  ("mpsci.distributions.logistic._mle_loc_eq", Seq (Eval []) (Seq (Eval []) (Return)));
  (** mpsci/distributions/logistic.py:162-165 *)
  ("mpsci.distributions.logistic._mle_scale_eq", Seq (Eval []) (Seq (Eval []) (Seq (Eval []) (Return))));
  (** mpsci/distributions/logistic.py:183-184 *)
  ("mpsci.distributions.logistic.mle.<lambda>@183", Eval ["mpsci.distributions.logistic._mle_loc_eq"; "mpsci.distributions.logistic._mle_scale_eq"]);
  (** mpsci/distributions/logistic.py:168-191 *)
  ("mpsci.distributions.logistic.mle", With (ExtraDps (Min (Num 5) (Div Dps (Num 4)))) (Seq (Eval ["mpsci.distributions.logistic.mom"]) (Seq (Eval ["mpsci.distributions._common._seq_to_mp"]) (Seq (Eval ["?"; "mpsci.distributions.logistic.mle.<lambda>@183"]) (Seq (Eval []) (Return))))));
  (** mpsci/distributions/logistic.py:1-192 *)
  ("mpsci.distributions.logistic.<module>", Eval []);
  (** mpsci/distributions/loglogistic.py:23-28 *)
  ("mpsci.distributions.loglogistic._validate_params", Seq (Seq (Eval []) (If (Seq (Eval []) (Raise)) (Skip))) (Seq (Seq (Eval []) (If (Seq (Eval []) (Raise)) (Skip))) (Seq (Eval []) (Return))));
  (** mpsci/distributions/loglogistic.py:31-36 *)
  ("mpsci.distributions.loglogistic.support", Seq (Eval ["mpsci.distributions.loglogistic._validate_params"]) (Seq (Eval []) (Return)));
  (** mpsci/distributions/loglogistic.py:39-51 *)
  ("mpsci.distributions.loglogistic.pdf", With (ExtraDps (Num 5)) (Seq (Eval ["mpsci.distributions.loglogistic._validate_params"]) (Seq (Eval []) (Seq (Seq (Eval []) (If (Eval []) (Seq (Eval []) (Eval [])))) (Seq (Eval []) (Return))))));
  (** mpsci/distributions/loglogistic.py:54-67 *)
  ("mpsci.distributions.loglogistic.logpdf", With (ExtraDps (Num 5)) (Seq (Eval ["mpsci.distributions.loglogistic._validate_params"]) (Seq (Eval []) (Seq (Seq (Eval []) (If (Eval []) (Seq (Eval []) (Eval [])))) (Seq (Eval []) (Return))))));
  (** mpsci/distributions/loglogistic.py:70-82 *)
  ("mpsci.distributions.loglogistic.cdf", With (ExtraDps (Num 5)) (Seq (Eval ["mpsci.distributions.loglogistic._validate_params"]) (Seq (Eval []) (Seq (Seq (Eval []) (If (Eval []) (Seq (Eval []) (Eval [])))) (Seq (Eval []) (Return))))));
  (** mpsci/distributions/loglogistic.py:85-98 *)
  ("mpsci.distributions.loglogistic.sf", With (ExtraDps (Num 5)) (Seq (Eval ["mpsci.distributions.loglogistic._validate_params"]) (Seq (Eval []) (Seq (Seq (Eval []) (If (Eval []) (Seq (Eval []) (Seq (Eval []) (Eval []))))) (Seq (Eval []) (Return))))));
  (** mpsci/distributions/loglogistic.py:101-114 *)
  ("mpsci.distributions.loglogistic.invcdf", With (ExtraDps (Num 5)) (Seq (Eval ["mpsci.distributions.loglogistic._validate_params"]) (Seq (Eval ["mpsci.distributions._common._validate_p"]) (Seq (Seq (Eval []) (If (Seq (Eval []) (Return)) (Skip))) (Seq (Eval []) (Seq (Eval []) (Return)))))));
  (** mpsci/distributions/loglogistic.py:117-127 *)
  ("mpsci.distributions.loglogistic.invsf", With (ExtraDps (Num 5)) (Seq (Eval ["mpsci.distributions.loglogistic._validate_params"]) (Seq (Eval ["mpsci.distributions._common._validate_p"]) (Seq (Seq (Eval []) (If (Seq (Eval []) (Return)) (Skip))) (Seq (Eval []) (Seq (Eval []) (Return)))))));
  (** mpsci/distributions/loglogistic.py:130-140 *)
  ("mpsci.distributions.loglogistic.mean", With (ExtraDps (Num 5)) (Seq (Eval ["mpsci.distributions.loglogistic._validate_params"]) (Seq (Seq (Eval []) (If (Seq (Eval []) (Return)) (Skip))) (Seq (Eval []) (Return)))));
  (** mpsci/distributions/loglogistic.py:143-153 *)
  ("mpsci.distributions.loglogistic.var", With (ExtraDps (Num 5)) (Seq (Eval ["mpsci.distributions.loglogistic._validate_params"]) (Seq (Seq (Eval []) (If (Seq (Eval []) (Return)) (Skip))) (Seq (Eval []) (Return)))))
].
Definition table12 : program := [
  (** mpsci/distributions/loglogistic.py:156-170 *)
  ("mpsci.distributions.loglogistic.noncentral_moment", With (ExtraDps (Num 5)) (Seq (Eval ["mpsci.distributions._common._validate_moment_n"]) (Seq (Eval ["mpsci.distributions.loglogistic._validate_params"]) (Seq (Seq (Eval []) (If (Seq (Eval []) (Return)) (Skip))) (Seq (Eval []) (Return))))));
  (** mpsci/distributions/loglogistic.py:1-171 *)
  ("mpsci.distributions.loglogistic.<module>", Eval []);
  (** mpsci/distributions/lognormal.py:21-24 *)
  ("mpsci.distributions.lognormal._validate_params", Seq (Seq (Eval []) (If (Seq (Eval []) (Raise)) (Skip))) (Seq (Eval []) (Return)));
  (** mpsci/distributions/lognormal.py:27-37 *)
  ("mpsci.distributions.lognormal.pdf", With (ExtraDps (Num 5)) (Seq (Eval ["mpsci.distributions.lognormal._validate_params"]) (Seq (Eval []) (Seq (Seq (Eval []) (If (Seq (Eval []) (Return)) (Skip))) (Seq (Eval []) (Seq (Eval []) (Return)))))));
  (** mpsci/distributions/lognormal.py:40-52 *)
  ("mpsci.distributions.lognormal.logpdf", With (ExtraDps (Num 5)) (Seq (Eval ["mpsci.distributions.lognormal._validate_params"]) (Seq (Eval []) (Seq (Seq (Eval []) (If (Seq (Eval []) (Return)) (Skip))) (Seq (Eval []) (Seq (Eval []) (Seq (Eval []) (Return))))))));
  (** mpsci/distributions/lognormal.py:55-65 *)
  ("mpsci.distributions.lognormal.cdf", With (ExtraDps (Num 5)) (Seq (Eval ["mpsci.distributions.lognormal._validate_params"]) (Seq (Eval []) (Seq (Seq (Eval []) (If (Seq (Eval []) (Return)) (Skip))) (Seq (Eval []) (Seq (Eval []) (Return)))))));
  (** mpsci/distributions/lognormal.py:68-78 *)
  ("mpsci.distributions.lognormal.sf", With (ExtraDps (Num 5)) (Seq (Eval ["mpsci.distributions.lognormal._validate_params"]) (Seq (Eval []) (Seq (Seq (Eval []) (If (Seq (Eval []) (Return)) (Skip))) (Seq (Eval []) (Seq (Eval []) (Return)))))));
  (** mpsci/distributions/lognormal.py:81-93 *)
  ("mpsci.distributions.lognormal.invcdf", With (ExtraDps (Num 5)) (Seq (Eval ["mpsci.distributions._common._validate_p"]) (Seq (Eval ["mpsci.distributions.lognormal._validate_params"]) (Seq (Eval []) (Seq (Eval []) (Seq (Eval []) (Return)))))));
  (** mpsci/distributions/lognormal.py:96-103 *)
  ("mpsci.distributions.lognormal.invsf", With (ExtraDps (Num 5)) (Seq (Eval ["mpsci.distributions._common._validate_p"]) (Seq (Eval ["mpsci.distributions.lognormal._validate_params"]) (Seq (Eval ["mpsci.distributions.lognormal.invcdf"]) (Return)))));
  (** mpsci/distributions/lognormal.py:106-112 *)
  ("mpsci.distributions.lognormal.support", With (ExtraDps (Num 5)) (Seq (Eval ["mpsci.distributions.lognormal._validate_params"]) (Seq (Eval []) (Return))));
  (** mpsci/distributions/lognormal.py:115-121 *)
  ("mpsci.distributions.lognormal.mean", With (ExtraDps (Num 5)) (Seq (Eval ["mpsci.distributions.lognormal._validate_params"]) (Seq (Eval []) (Return))));
  (** mpsci/distributions/lognormal.py:124-130 *)
  ("mpsci.distributions.lognormal.mode", With (ExtraDps (Num 5)) (Seq (Eval ["mpsci.distributions.lognormal._validate_params"]) (Seq (Eval []) (Return))));
  (** mpsci/distributions/lognormal.py:133-140 *)
  ("mpsci.distributions.lognormal.var", With (ExtraDps (Num 5)) (Seq (Eval ["mpsci.distributions.lognormal._validate_params"]) (Seq (Eval []) (Seq (Eval []) (Return)))));
  (** mpsci/distributions/lognormal.py:143-150 *)
  ("mpsci.distributions.lognormal.skewness", With (ExtraDps (Num 5)) (Seq (Eval ["mpsci.distributions.lognormal._validate_params"]) (Seq (Eval []) (Seq (Eval []) (Return)))));
  (** mpsci/distributions/lognormal.py:153-161 *)
  ("mpsci.distributions.lognormal.kurtosis", With (ExtraDps (Num 5)) (Seq (Eval ["mpsci.distributions.lognormal._validate_params"]) (Seq (Eval []) (Seq (Eval []) (Return)))));
  (** mpsci/distributions/lognormal.py:164-170 *)
  ("mpsci.distributions.lognormal.entropy", With (ExtraDps (Num 5)) (Seq (Eval ["mpsci.distributions.lognormal._validate_params"]) (Seq (Eval []) (Return))));
  (** mpsci/distributions/lognormal.py:173-180 *)
  ("mpsci.distributions.lognormal.noncentral_moment", With (ExtraDps (Num 5)) (Seq (Eval ["mpsci.distributions._common._validate_moment_n"]) (Seq (Eval ["mpsci.distributions.lognormal._validate_params"]) (Seq (Eval []) (Return)))));
  (** mpsci/distributions/lognormal.py:183-193 *)
  ("mpsci.distributions.lognormal.nll", With (ExtraDps (Num 5)) (Seq (Eval ["mpsci.distributions.lognormal._validate_params"]) (Seq (Eval ["mpsci.distributions._common._validate_x_bounds"]) (Seq (Eval ["mpsci.distributions.lognormal.logpdf"]) (Return)))));
  (** mpsci/distributions/lognormal.py:199-214 *)
  ("mpsci.distributions.lognormal.mle", With (ExtraDps (Num 5)) (Seq (Eval ["mpsci.distributions._common._validate_x_bounds"]) (Seq (Eval []) (Seq (Eval []) (Seq (Eval []) (Seq (Eval []) (Seq (Eval []) (Seq (Eval []) (Return)))))))));
  (** mpsci/distributions/lognormal.py:217-232 *)
  ("mpsci.distributions.lognormal.mom", With (ExtraDps (Num 5)) (Seq (Eval ["mpsci.distributions._common._validate_x_bounds"]) (Seq (Eval []) (Seq (Eval []) (Seq (Eval []) (Seq (Eval []) (Seq (Eval []) (Seq (Eval []) (Return)))))))));
  (** mpsci/distributions/lognormal.py:1-233 *)
  ("mpsci.distributions.lognormal.<module>", Eval []);
  (** mpsci/distributions/logseries.py:22-39 *)
  ("mpsci.distributions.logseries.support", Seq (Eval []) (Return));
  (** mpsci/distributions/logseries.py:42-50 *)
  ("mpsci.distributions.logseries.pmf", With (ExtraDps (Num 5)) (Seq (Eval ["mpsci.distributions._common._validate_p"]) (Seq (Seq (Eval []) (If (Seq (Eval []) (Return)) (Skip))) (Seq (Eval ["mpsci.distributions.logseries.logpmf"]) (Return)))));
  (** mpsci/distributions/logseries.py:53-61 *)
  ("mpsci.distributions.logseries.logpmf", With (ExtraDps (Num 5)) (Seq (Eval ["mpsci.distributions._common._validate_p"]) (Seq (Seq (Eval []) (If (Seq (Eval []) (Return)) (Skip))) (Seq (Eval []) (Return)))));
  (** mpsci/distributions/logseries.py:64-72 *)
  ("mpsci.distributions.logseries.cdf", With (ExtraDps (Num 5)) (Seq (Eval ["mpsci.distributions._common._validate_p"]) (Seq (Seq (Eval []) (If (Seq (Eval []) (Return)) (Skip))) (Seq (Eval []) (Return)))));
  (** mpsci/distributions/logseries.py:75-83 *)
  ("mpsci.distributions.logseries.sf", With (ExtraDps (Num 5)) (Seq (Eval ["mpsci.distributions._common._validate_p"]) (Seq (Seq (Eval []) (If (Seq (Eval []) (Return)) (Skip))) (Seq (Eval []) (Return)))));
  (** mpsci/distributions/logseries.py:86-92 *)
  ("mpsci.distributions.logseries.mean", With (ExtraDps (Num 5)) (Seq (Eval ["mpsci.distributions._common._validate_p"]) (Seq (Eval []) (Return))));
  (** mpsci/distributions/logseries.py:95-102 *)
  ("mpsci.distributions.logseries.var", With (ExtraDps (Num 5)) (Seq (Eval ["mpsci.distributions._common._validate_p"]) (Seq (Eval []) (Seq (Eval []) (Return)))));
  (** mpsci/distributions/logseries.py:105-110 *)
  ("mpsci.distributions.logseries.mode", Seq (Eval ["mpsci.distributions._common._validate_p"]) (Seq (Eval []) (Return)));
  (** mpsci/distributions/logseries.py:113-123 *)
  ("mpsci.distributions.logseries.skewness", With (ExtraDps (Num 5)) (Seq (Eval ["mpsci.distributions._common._validate_p"]) (Seq (Eval []) (Seq (Eval []) (Seq (Eval []) (Seq (Eval []) (Seq (Eval []) (Return))))))));
  (** mpsci/distributions/logseries.py:126-137 *)
  ("mpsci.distributions.logseries.kurtosis", With (ExtraDps (Num 5)) (Seq (Eval ["mpsci.distributions._common._validate_p"]) (Seq (Eval []) (Seq (Eval []) (Seq (Eval []) (Seq (Eval []) (Seq (Eval []) (Seq (Eval []) (Return)))))))));
  (** mpsci/distributions/logseries.py:140-150 *)
  ("mpsci.distributions.logseries.nll", With (ExtraDps (Num 5)) (Seq (Eval ["mpsci.distributions._common._validate_p"]) (Seq (Seq (Eval []) (If (Seq (Eval []) (Raise)) (Skip))) (Seq (Eval ["mpsci.distributions._common._validate_counts"]) (Seq (Eval ["mpsci.distributions.logseries.logpmf"]) (Return))))));
  (** mpsci/distributions/logseries.py:153-161 *)
  ("mpsci.distributions.logseries._approx_inv_mle_func", Seq (Eval []) (Seq (Eval []) (Seq (Eval []) (Seq (Seq (Eval []) (If (Seq (Eval []) (Return)) (Skip))) (Seq (Eval []) (Return))))));
  (** mpsci/distributions/logseries.py:164-165 *)
  ("mpsci.distributions.logseries._mle_func", Seq (Eval []) (Return));
  (** mpsci/distributions/logseries.py:195-195 *)
  ("mpsci.distributions.logseries.mle.<lambda>@195", Eval ["mpsci.distributions.logseries._mle_func"]);
  (** mpsci/distributions/logseries.py:206-206 *)
  ("mpsci.distributions.logseries.mle.<lambda>@206", Eval ["mpsci.distributions.logseries._mle_func"]);
  (** mpsci/distributions/logseries.py:168-208 *)
  ("mpsci.distributions.logseries.mle", With (ExtraDps (Num 5)) (With (ExtraDps Dps) (Seq (Eval ["mpsci.stats._basic.mean"]) (Seq (Seq (Eval []) (If (Seq (Eval []) (Return)) (Skip))) (Seq (Eval []) (If (Seq (Eval ["mpsci.distributions.logseries._approx_inv_mle_func"]) (Seq (Eval ["?"; "mpsci.distributions.logseries.mle.<lambda>@195"]) (Seq (Eval []) (Return)))) (Seq (Eval []) (Seq (Eval []) (Seq (Eval []) (Seq (Eval []) (Seq (Eval []) (Seq (Eval ["?"; "mpsci.distributions.logseries.mle.<lambda>@206"]) (Seq (Eval []) (Return))))))))))))));
  (** mpsci/distributions/logseries.py:1-209 *)
  ("mpsci.distributions.logseries.<module>", Eval []);
  (** mpsci/distributions/maxwell.py:25-28 *)
  ("mpsci.distributions.maxwell._validate_params", Seq (Seq (Eval []) (If (Seq (Eval []) (Raise)) (Skip))) (Seq (Eval []) (Return)));
  (** mpsci/distributions/maxwell.py:31-42 *)
  ("mpsci.distributions.maxwell.pdf", With (ExtraDps (Num 5)) (Seq (Eval ["mpsci.distributions.maxwell._validate_params"]) (Seq (Seq (Eval []) (If (Seq (Eval []) (Return)) (Skip))) (Seq (Eval []) (Seq (Eval []) (Seq (Eval []) (Seq (Eval []) (Return))))))));
  (** mpsci/distributions/maxwell.py:45-55 *)
  ("mpsci.distributions.maxwell.logpdf", With (ExtraDps (Num 5)) (Seq (Eval ["mpsci.distributions.maxwell._validate_params"]) (Seq (Seq (Eval []) (If (Seq (Eval []) (Return)) (Skip))) (Seq (Eval []) (Seq (Eval []) (Seq (Eval []) (Return)))))));
  (** mpsci/distributions/maxwell.py:58-68 *)
  ("mpsci.distributions.maxwell.cdf", With (ExtraDps (Num 5)) (Seq (Eval ["mpsci.distributions.maxwell._validate_params"]) (Seq (Seq (Eval []) (If (Seq (Eval []) (Return)) (Skip))) (Seq (Eval []) (Seq (Eval []) (Seq (Eval []) (Return)))))));
  (** mpsci/distributions/maxwell.py:88-88 *)
  ("mpsci.distributions.maxwell.invcdf.<lambda>@88", Eval ["mpsci.distributions.maxwell.cdf"]);
  (** mpsci/distributions/maxwell.py:95-95 *)
  ("mpsci.distributions.maxwell.invcdf.<lambda>@95", Eval ["mpsci.distributions.maxwell.cdf"]);
  (** mpsci/distributions/maxwell.py:92-92 *)
  ("mpsci.distributions.maxwell.invcdf.<lambda>@92", Eval ["mpsci.distributions.maxwell.cdf"]);
  (** mpsci/distributions/maxwell.py:71-97 *)
  ("mpsci.distributions.maxwell.invcdf", With (ExtraDps (Num 5)) (Seq (Eval ["mpsci.distributions._common._validate_p"]) (Seq (Eval ["mpsci.distributions.maxwell._validate_params"]) (Seq (Seq (Eval []) (If (Seq (Eval []) (Return)) (Skip))) (Seq (Seq (Eval []) (If (Seq (Eval []) (Return)) (Skip))) (Seq (Eval ["mpsci.distributions._common._find_bracket"; "mpsci.distributions.maxwell.invcdf.<lambda>@88"]) (Seq (Seq (Eval []) (If (Seq (Eval []) (Return)) (Skip))) (Seq (Try (Eval ["?"; "mpsci.distributions.maxwell.invcdf.<lambda>@92"]) (Eval ["?"; "mpsci.distributions.maxwell.invcdf.<lambda>@95"]) (Skip)) (Seq (Eval []) (Return))))))))));
  (** mpsci/distributions/maxwell.py:100-110 *)
  ("mpsci.distributions.maxwell.sf", With (ExtraDps (Num 5)) (Seq (Eval ["mpsci.distributions.maxwell._validate_params"]) (Seq (Seq (Eval []) (If (Seq (Eval []) (Return)) (Skip))) (Seq (Eval []) (Seq (Eval []) (Seq (Eval []) (Return)))))));
  (** mpsci/distributions/maxwell.py:128-128 *)
  ("mpsci.distributions.maxwell.invsf.<lambda>@128", Eval ["mpsci.distributions.maxwell.sf"]);
  (** mpsci/distributions/maxwell.py:135-135 *)
  ("mpsci.distributions.maxwell.invsf.<lambda>@135", Eval ["mpsci.distributions.maxwell.cdf"]);
  (** mpsci/distributions/maxwell.py:132-132 *)
  ("mpsci.distributions.maxwell.invsf.<lambda>@132", Eval ["mpsci.distributions.maxwell.sf"]);
  (** mpsci/distributions/maxwell.py:113-137 *)
  ("mpsci.distributions.maxwell.invsf", With (ExtraDps (Num 5)) (Seq (Eval ["mpsci.distributions._common._validate_p"]) (Seq (Eval ["mpsci.distributions.maxwell._validate_params"]) (Seq (Seq (Eval []) (If (Seq (Eval []) (Return)) (Skip))) (Seq (Seq (Eval []) (If (Seq (Eval []) (Return)) (Skip))) (Seq (Eval ["mpsci.distributions._common._find_bracket"; "mpsci.distributions.maxwell.invsf.<lambda>@128"]) (Seq (Seq (Eval []) (If (Seq (Eval []) (Return)) (Skip))) (Seq (Try (Eval ["?"; "mpsci.distributions.maxwell.invsf.<lambda>@132"]) (Eval ["?"; "mpsci.distributions.maxwell.invsf.<lambda>@135"]) (Skip)) (Seq (Eval []) (Return))))))))));
  (** mpsci/distributions/maxwell.py:140-145 *)
  ("mpsci.distributions.maxwell.support", Seq (Eval ["mpsci.distributions.maxwell._validate_params"]) (Seq (Eval []) (Return)));
  (** mpsci/distributions/maxwell.py:148-154 *)
  ("mpsci.distributions.maxwell.mean", With (ExtraDps (Num 5)) (Seq (Eval ["mpsci.distributions.maxwell._validate_params"]) (Seq (Eval []) (Return))));
  (** mpsci/distributions/maxwell.py:157-163 *)
  ("mpsci.distributions.maxwell.mode", With (ExtraDps (Num 5)) (Seq (Eval ["mpsci.distributions.maxwell._validate_params"]) (Seq (Eval []) (Return))));
  (** mpsci/distributions/maxwell.py:166-172 *)
  ("mpsci.distributions.maxwell.var", With (ExtraDps (Num 5)) (Seq (Eval ["mpsci.distributions.maxwell._validate_params"]) (Seq (Eval []) (Return))));
  (** mpsci/distributions/maxwell.py:175-181 *)
  ("mpsci.distributions.maxwell.entropy", With (ExtraDps (Num 5)) (Seq (Eval ["mpsci.distributions.maxwell._validate_params"]) (Seq (Eval []) (Return))));
  (** mpsci/distributions/maxwell.py:1-182 *)
  ("mpsci.distributions.maxwell.<module>", Eval []);
  (** mpsci/distributions/multivariate_hypergeometric.py:17-21 *)
  ("mpsci.distributions.multivariate_hypergeometric._validate_params", Seq (Seq (Eval []) (If (Seq (Eval []) (Raise)) (Skip))) (Seq (Eval []) (If (Seq (Eval []) (Raise)) (Skip))));
  (** mpsci/distributions/multivariate_hypergeometric.py:24-57 *)
  ("mpsci.distributions.multivariate_hypergeometric.support", Seq (Eval ["mpsci.distributions.multivariate_hypergeometric._validate_params"]) (Seq (Eval ["mpsci.distributions.multivariate_hypergeometric._support_gen"]) (Return)));
  (** mpsci/distributions/multivariate_hypergeometric.py:60-69 *)
  ("mpsci.distributions.multivariate_hypergeometric._support_gen", Seq (Eval []) (If (Seq (Eval []) Yield) (Seq (Eval []) (Seq (Eval []) (Seq (Eval []) (Seq (Eval []) (Seq (Eval []) (Loop (Seq (Eval ["mpsci.distributions.multivariate_hypergeometric._support_gen"]) Yield)))))))))
].
Definition table13 : program := [
  (** mpsci/distributions/multivariate_hypergeometric.py:72-93 *)
  ("mpsci.distributions.multivariate_hypergeometric.logpmf", With (ExtraDps (Num 5)) (Seq (Eval ["mpsci.distributions.multivariate_hypergeometric._validate_params"]) (Seq (Eval []) (Seq (Eval ["mpsci.fun._logbinomial.logbinomial"]) (Seq (Eval []) (Seq (Seq (Eval []) (Loop (Eval ["mpsci.fun._logbinomial.logbinomial"]))) (Seq (Eval []) (Seq (Eval []) (Return)))))))));
  (** mpsci/distributions/multivariate_hypergeometric.py:96-109 *)
  ("mpsci.distributions.multivariate_hypergeometric.pmf", Seq (Eval ["mpsci.distributions.multivariate_hypergeometric.logpmf"]) (Return));
  (** mpsci/distributions/multivariate_hypergeometric.py:112-143 *)
  ("mpsci.distributions.multivariate_hypergeometric.mean", With (ExtraDps (Num 5)) (Seq (Eval ["mpsci.distributions.multivariate_hypergeometric._validate_params"]) (Seq (Eval []) (Seq (Seq (Eval []) (If (Seq (Eval []) (Return)) (Skip))) (Seq (Eval []) (Return))))));
  (** mpsci/distributions/multivariate_hypergeometric.py:146-211 *)
  ("mpsci.distributions.multivariate_hypergeometric.cov", With (ExtraDps (Num 5)) (Seq (Eval ["mpsci.distributions.multivariate_hypergeometric._validate_params"]) (Seq (Eval []) (Seq (Eval []) (Seq (Seq (Eval []) (If (Seq (Eval []) (Return)) (Skip))) (Seq (Eval []) (Seq (Eval []) (Seq (Eval []) (Seq (Seq (Eval []) (Loop (Seq (Eval []) (Loop (Seq (Eval []) (If (Eval []) (Eval []))))))) (Seq (Eval []) (Return)))))))))));
  (** mpsci/distributions/multivariate_hypergeometric.py:214-242 *)
  ("mpsci.distributions.multivariate_hypergeometric.entropy", With (ExtraDps (Num 5)) (Seq (Eval ["mpsci.distributions.multivariate_hypergeometric._validate_params"]) (Seq (Eval []) (Seq (Seq (Eval ["mpsci.distributions.multivariate_hypergeometric._support_gen"]) (Loop (Seq (Eval ["mpsci.distributions.multivariate_hypergeometric.logpmf"]) (Eval [])))) (Seq (Eval []) (Return))))));
  (** mpsci/distributions/multivariate_hypergeometric.py:1-243 *)
  ("mpsci.distributions.multivariate_hypergeometric.<module>", Seq (Eval []) (Eval []));
  (** mpsci/distributions/multivariate_t.py:27-62 *)
  ("mpsci.distributions.multivariate_t.logpdf", With (ExtraDps (Num 5)) (Seq (Eval []) (Seq (Eval []) (Seq (Seq (Eval []) (If (With (ExtraDps (Num 5)) (Eval [])) (Skip))) (Seq (Eval []) (Seq (Seq (Eval []) (Loop (Eval []))) (Seq (Eval []) (Seq (Eval []) (Seq (Seq (Eval []) (Loop (Eval []))) (Seq (Eval []) (Seq (Eval []) (Seq (Eval []) (Seq (Eval []) (Seq (Eval []) (Seq (Eval []) (Seq (Eval []) (Seq (Eval []) (Seq (With (ExtraDps (Num 5)) (Eval [])) (Seq (Eval []) (Seq (Eval []) (Return)))))))))))))))))))));
  (** mpsci/distributions/multivariate_t.py:65-76 *)
  ("mpsci.distributions.multivariate_t.pdf", Seq (Eval ["mpsci.distributions.multivariate_t.logpdf"]) (Return));
  (** mpsci/distributions/multivariate_t.py:79-98 *)
  ("mpsci.distributions.multivariate_t.entropy", With (ExtraDps (Num 5)) (Seq (Eval []) (Seq (Eval []) (Seq (Eval []) (Seq (Eval []) (Seq (Eval []) (Seq (Eval []) (Return))))))));
  (** mpsci/distributions/multivariate_t.py:1-99 *)
  ("mpsci.distributions.multivariate_t.<module>", Seq (Eval []) (Eval []));
  (** mpsci/distributions/nakagami.py:31-36 *)
  ("mpsci.distributions.nakagami._validate_params", Seq (Seq (Eval []) (If (Seq (Eval []) (Raise)) (Skip))) (Seq (Seq (Eval []) (If (Seq (Eval []) (Raise)) (Skip))) (Seq (Eval []) (Return))));
  (** mpsci/distributions/nakagami.py:39-50 *)
  ("mpsci.distributions.nakagami.pdf", With (ExtraDps (Num 5)) (Seq (Eval ["mpsci.distributions.nakagami._validate_params"]) (Seq (Seq (Eval []) (If (Seq (Eval []) (Return)) (Skip))) (Seq (Eval []) (Seq (Eval []) (Seq (Eval []) (Return)))))));
  (** mpsci/distributions/nakagami.py:53-64 *)
  ("mpsci.distributions.nakagami.logpdf", With (ExtraDps (Num 5)) (Seq (Eval ["mpsci.distributions.nakagami._validate_params"]) (Seq (Seq (Eval []) (If (Seq (Eval []) (Return)) (Skip))) (Seq (Eval []) (Seq (Eval []) (Seq (Eval []) (Return)))))));
  (** mpsci/distributions/nakagami.py:67-77 *)
  ("mpsci.distributions.nakagami.cdf", With (ExtraDps (Num 5)) (Seq (Eval ["mpsci.distributions.nakagami._validate_params"]) (Seq (Seq (Eval []) (If (Seq (Eval []) (Return)) (Skip))) (Seq (Eval []) (Seq (Eval []) (Seq (Eval []) (Return)))))));
  (** mpsci/distributions/nakagami.py:91-91 *)
  ("mpsci.distributions.nakagami.invcdf.<lambda>@91", Eval ["mpsci.distributions.nakagami.cdf"]);
  (** mpsci/distributions/nakagami.py:92-92 *)
  ("mpsci.distributions.nakagami.invcdf.<lambda>@92", Eval ["mpsci.distributions.nakagami.cdf"]);
  (** mpsci/distributions/nakagami.py:80-93 *)
  ("mpsci.distributions.nakagami.invcdf", With (ExtraDps (Num 5)) (Seq (Eval ["mpsci.distributions._common._validate_p"]) (Seq (Eval ["mpsci.distributions.nakagami._validate_params"]) (Seq (With (ExtraDps Dps) (Seq (Eval ["mpsci.distributions._common._find_bracket"; "mpsci.distributions.nakagami.invcdf.<lambda>@91"]) (Eval ["?"; "mpsci.distributions.nakagami.invcdf.<lambda>@92"]))) (Seq (Eval []) (Return))))));
  (** mpsci/distributions/nakagami.py:96-106 *)
  ("mpsci.distributions.nakagami.sf", With (ExtraDps (Num 5)) (Seq (Eval ["mpsci.distributions.nakagami._validate_params"]) (Seq (Seq (Eval []) (If (Seq (Eval []) (Return)) (Skip))) (Seq (Eval []) (Seq (Eval []) (Seq (Eval []) (Return)))))));
  (** mpsci/distributions/nakagami.py:120-120 *)
  ("mpsci.distributions.nakagami.invsf.<lambda>@120", Eval ["mpsci.distributions.nakagami.sf"]);
  (** mpsci/distributions/nakagami.py:121-121 *)
  ("mpsci.distributions.nakagami.invsf.<lambda>@121", Eval ["mpsci.distributions.nakagami.sf"]);
  (** mpsci/distributions/nakagami.py:109-122 *)
  ("mpsci.distributions.nakagami.invsf", With (ExtraDps (Num 5)) (Seq (Eval ["mpsci.distributions._common._validate_p"]) (Seq (Eval ["mpsci.distributions.nakagami._validate_params"]) (Seq (With (ExtraDps Dps) (Seq (Eval ["mpsci.distributions._common._find_bracket"; "mpsci.distributions.nakagami.invsf.<lambda>@120"]) (Eval ["?"; "mpsci.distributions.nakagami.invsf.<lambda>@121"]))) (Seq (Eval []) (Return))))));
  (** mpsci/distributions/nakagami.py:125-131 *)
  ("mpsci.distributions.nakagami.support", With (ExtraDps (Num 5)) (Seq (Eval ["mpsci.distributions.nakagami._validate_params"]) (Seq (Eval []) (Return))));
  (** mpsci/distributions/nakagami.py:134-142 *)
  ("mpsci.distributions.nakagami.mean", With (ExtraDps (Num 5)) (Seq (Eval ["mpsci.distributions.nakagami._validate_params"]) (Seq (Eval []) (Seq (Eval []) (Seq (Eval []) (Return))))));
  (** mpsci/distributions/nakagami.py:145-151 *)
  ("mpsci.distributions.nakagami.mode", With (ExtraDps (Num 5)) (Seq (Eval ["mpsci.distributions.nakagami._validate_params"]) (Seq (Eval []) (Return))));
  (** mpsci/distributions/nakagami.py:154-162 *)
  ("mpsci.distributions.nakagami.var", With (ExtraDps (Num 5)) (Seq (Eval ["mpsci.distributions.nakagami._validate_params"]) (Seq (Eval []) (Seq (Eval []) (Seq (Eval []) (Return))))));
  (** mpsci/distributions/nakagami.py:165-172 *)
  ("mpsci.distributions.nakagami.entropy", With (ExtraDps (Num 5)) (Seq (Eval ["mpsci.distributions.nakagami._validate_params"]) (Seq (Eval []) (Return))));
  (** mpsci/distributions/nakagami.py:175-188 *)
  ("mpsci.distributions.nakagami.nll", With (ExtraDps (Num 5)) (Seq (Eval []) (Seq (Eval ["mpsci.distributions.nakagami._validate_params"]) (Seq (Eval ["mpsci.distributions._common._validate_x_bounds"]) (Seq (Eval []) (Seq (Eval []) (Seq (Eval []) (Seq (Eval []) (Seq (Eval []) (Return))))))))));
  (** mpsci/distributions/nakagami.py:191-207 *)
  ("mpsci.distributions.nakagami.nll_grad", With (ExtraDps (Num 5)) (Seq (Eval []) (Seq (Eval ["mpsci.distributions.nakagami._validate_params"]) (Seq (Eval ["mpsci.distributions._common._validate_x_bounds"]) (Seq (Eval []) (Seq (Eval []) (Seq (Eval []) (Seq (Eval []) (Seq (Eval []) (Seq (Eval []) (Seq (Eval []) (Return))))))))))));
  (** mpsci/distributions/nakagami.py:210-213 *)
  ("mpsci.distributions.nakagami._mle_nu_func", Seq (Eval []) (Seq (Eval []) (Return)));
  (** mpsci/distributions/nakagami.py:216-225 *)
  ("mpsci.distributions.nakagami._estimate_nu", Seq (Eval []) (If (Seq (Eval []) (Return)) (Seq (Eval []) (If (Seq (Eval []) (Return)) (Seq (Eval []) (Return))))));
  (** mpsci/distributions/nakagami.py:271-271 *)
  ("mpsci.distributions.nakagami.mle.<lambda>@271", Eval ["mpsci.distributions.nakagami._mle_nu_func"]);
  (** mpsci/distributions/nakagami.py:228-273 *)
  ("mpsci.distributions.nakagami.mle", With (ExtraDps (Num 5)) (Seq (Seq (Eval []) (If (Seq (Eval []) (Return)) (Skip))) (Seq (Seq (Eval []) (If (With (ExtraDps (Num 5)) (Seq (Eval ["mpsci.distributions._common._validate_x_bounds"]) (Seq (Eval []) (Eval [])))) (Seq (Eval []) (Raise)))) (Seq (Seq (Eval []) (If (Eval []) (Eval []))) (Seq (Seq (Eval []) (If (Eval []) (Seq (Seq (Eval []) (If (Eval ["mpsci.stats._basic.mean"]) (Eval ["mpsci.stats._basic.mean"]))) (Seq (Eval ["mpsci.distributions.nakagami._estimate_nu"]) (Eval ["?"; "mpsci.distributions.nakagami.mle.<lambda>@271"]))))) (Seq (Eval []) (Return)))))));
  (** mpsci/distributions/nakagami.py:1-274 *)
  ("mpsci.distributions.nakagami.<module>", Eval []);
  (** mpsci/distributions/ncf.py:13-25 *)
  ("mpsci.distributions.ncf._pdf_term", Seq (Eval []) (Seq (Eval []) (Seq (Eval []) (Seq (Eval ["mpsci.fun._logbeta.logbeta"]) (Seq (Eval []) (Return))))));
  (** mpsci/distributions/ncf.py:36-37 *)
  ("mpsci.distributions.ncf.pdf.<locals>._pdfk", Seq (Eval ["mpsci.distributions.ncf._pdf_term"]) (Return));
  (** mpsci/distributions/ncf.py:28-44 *)
  ("mpsci.distributions.ncf.pdf", With (ExtraDps (Num 5)) (Seq (Seq (Eval []) (If (Seq (Eval []) (Return)) (Skip))) (Seq (Eval []) (Seq (Eval []) (Seq (Eval []) (Seq (Eval []) (Seq (Eval ["mpsci.distributions.ncf.pdf.<locals>._pdfk"]) (Seq (Eval []) (Return)))))))));
  (** mpsci/distributions/ncf.py:47-56 *)
  ("mpsci.distributions.ncf._cdf_term", Seq (Eval []) (Seq (Eval []) (Seq (Eval []) (Seq (Eval []) (Seq (Eval []) (Seq (Eval []) (Seq (Eval []) (Return))))))));
  (** mpsci/distributions/ncf.py:67-68 *)
  ("mpsci.distributions.ncf.cdf.<locals>._cdfk", Seq (Eval ["mpsci.distributions.ncf._cdf_term"]) (Return));
  (** mpsci/distributions/ncf.py:59-75 *)
  ("mpsci.distributions.ncf.cdf", With (ExtraDps (Num 5)) (Seq (Seq (Eval []) (If (Seq (Eval []) (Return)) (Skip))) (Seq (Eval []) (Seq (Eval []) (Seq (Eval []) (Seq (Eval []) (Seq (Eval ["mpsci.distributions.ncf.cdf.<locals>._cdfk"]) (Seq (Eval []) (Return)))))))));
  (** mpsci/distributions/ncf.py:78-86 *)
  ("mpsci.distributions.ncf.support", With (ExtraDps (Num 5)) (Seq (Eval []) (Seq (Eval []) (Seq (Eval []) (Seq (Eval []) (Return))))));
  (** mpsci/distributions/ncf.py:89-100 *)
  ("mpsci.distributions.ncf.mean", With (ExtraDps (Num 5)) (Seq (Seq (Eval []) (If (Seq (Eval []) (Return)) (Skip))) (Seq (Eval []) (Seq (Eval []) (Seq (Eval []) (Seq (Eval []) (Return)))))));
  (** mpsci/distributions/ncf.py:103-118 *)
  ("mpsci.distributions.ncf.var", With (ExtraDps (Num 5)) (Seq (Seq (Eval []) (If (Seq (Eval []) (Return)) (Skip))) (Seq (Eval []) (Seq (Eval []) (Seq (Eval []) (Seq (Eval []) (Seq (Eval []) (Return))))))));
  (** mpsci/distributions/ncf.py:1-119 *)
  ("mpsci.distributions.ncf.<module>", Eval []);
  (** mpsci/distributions/nct.py:48-53 *)
  ("mpsci.distributions.nct.pdf.<locals>._pdf_term", Seq (Eval []) (Seq (Eval []) (Return)));
  (** mpsci/distributions/nct.py:22-57 *)
  ("mpsci.distributions.nct.pdf", With (ExtraDps (Num 5)) (Seq (Eval []) (Seq (Eval []) (Seq (Eval []) (Seq (Seq (Eval []) (If (Seq (Eval []) (Eval [])) (Seq (Eval []) (Seq (Eval []) (Seq (Eval ["mpsci.distributions.nct.pdf.<locals>._pdf_term"]) (Eval [])))))) (Seq (Eval []) (Return)))))));
  (** mpsci/distributions/nct.py:82-87 *)
  ("mpsci.distributions.nct.logpdf.<locals>._pdf_term", Seq (Eval []) (Seq (Eval []) (Return)));
  (** mpsci/distributions/nct.py:60-91 *)
  ("mpsci.distributions.nct.logpdf", With (ExtraDps (Num 5)) (Seq (Eval []) (Seq (Eval []) (Seq (Eval []) (Seq (Seq (Eval []) (If (Eval []) (Seq (Eval []) (Seq (Eval ["mpsci.distributions.nct.logpdf.<locals>._pdf_term"]) (Eval []))))) (Seq (Eval []) (Return)))))));
  (** mpsci/distributions/nct.py:94-98 *)
  ("mpsci.distributions.nct.support", Seq (Eval []) (Return));
  (** mpsci/distributions/nct.py:101-113 *)
  ("mpsci.distributions.nct.mean", With (ExtraDps (Num 5)) (Seq (Eval []) (Seq (Eval []) (Seq (Eval []) (Seq (Eval []) (Return))))));
  (** mpsci/distributions/nct.py:116-125 *)
  ("mpsci.distributions.nct.var", With (ExtraDps (Num 5)) (Seq (Eval []) (Seq (Eval []) (Seq (Eval []) (Seq (Eval []) (Return))))));
  (** mpsci/distributions/nct.py:128-145 *)
  ("mpsci.distributions.nct._poly_coeffs", Seq (Seq (Eval []) (If (Seq (Eval []) (Return)) (Skip))) (Seq (Eval []) (Seq (Seq (Eval []) (Loop (Seq (Eval []) (Eval [])))) (Seq (Eval []) (Return)))));
  (** mpsci/distributions/nct.py:148-169 *)
  ("mpsci.distributions.nct.noncentral_moment", With (ExtraDps (Num 5)) (Seq (Eval ["mpsci.distributions._common._validate_moment_n"]) (Seq (Eval []) (Seq (Eval []) (Seq (Seq (Eval []) (If (Seq (Eval []) (Return)) (Skip))) (Seq (Eval ["mpsci.distributions.nct._poly_coeffs"]) (Seq (Seq (Eval []) (If (Eval []) (Eval []))) (Seq (Eval []) (Return)))))))));
  (** mpsci/distributions/nct.py:1-170 *)
  ("mpsci.distributions.nct.<module>", Seq (Eval []) (Eval ["?"]));
  (** mpsci/distributions/ncx2.py:13-25 *)
  ("mpsci.distributions.ncx2.pdf", With (ExtraDps (Num 5)) (Seq (Seq (Eval []) (If (Seq (Eval []) (Return)) (Skip))) (Seq (Eval []) (Seq (Eval []) (Seq (Eval []) (Seq (Eval []) (Seq (Eval []) (Return))))))));
  (** mpsci/distributions/ncx2.py:28-39 *)
  ("mpsci.distributions.ncx2.cdf", With (ExtraDps (Num 5)) (Seq (Seq (Eval []) (If (Seq (Eval []) (Return)) (Skip))) (Seq (Eval []) (Seq (Eval []) (Seq (Eval []) (Seq (Eval ["mpsci.fun._marcumq.cmarcumq"]) (Seq (Eval []) (Return))))))));
  (** mpsci/distributions/ncx2.py:42-53 *)
  ("mpsci.distributions.ncx2.sf", With (ExtraDps (Num 5)) (Seq (Seq (Eval []) (If (Seq (Eval []) (Return)) (Skip))) (Seq (Eval []) (Seq (Eval []) (Seq (Eval []) (Seq (Eval ["mpsci.fun._marcumq.marcumq"]) (Seq (Eval []) (Return))))))));
  (** mpsci/distributions/ncx2.py:56-63 *)
  ("mpsci.distributions.ncx2.support", With (ExtraDps (Num 5)) (Seq (Eval []) (Seq (Eval []) (Seq (Eval []) (Return)))));
  (** mpsci/distributions/ncx2.py:66-73 *)
  ("mpsci.distributions.ncx2.mean", With (ExtraDps (Num 5)) (Seq (Eval []) (Seq (Eval []) (Seq (Eval []) (Return)))));
  (** mpsci/distributions/ncx2.py:76-83 *)
  ("mpsci.distributions.ncx2.var", With (ExtraDps (Num 5)) (Seq (Eval []) (Seq (Eval []) (Seq (Eval []) (Return)))));
  (** mpsci/distributions/ncx2.py:1-84 *)
  ("mpsci.distributions.ncx2.<module>", Eval [])
].
Definition table14 : program := [
  (** mpsci/distributions/negative_binomial.py:23-32 *)
  ("mpsci.distributions.negative_binomial._validate_params", Seq (Seq (Eval []) (If (Seq (Eval []) (Raise)) (Skip))) (Seq (Eval []) (Seq (Seq (Eval []) (If (Seq (Eval []) (Raise)) (Skip))) (Seq (Seq (Eval []) (If (Seq (Eval []) (Raise)) (Skip))) (Seq (Eval []) (Seq (Eval []) (Return)))))));
  (** mpsci/distributions/negative_binomial.py:35-52 *)
  ("mpsci.distributions.negative_binomial.support", Seq (Eval []) (Return));
  (** mpsci/distributions/negative_binomial.py:55-64 *)
  ("mpsci.distributions.negative_binomial._validate_x", Seq (Eval []) (Seq (Seq (Eval []) (Loop (Seq (Seq (Eval []) (If (Seq (Eval []) (Raise)) (Skip))) (Seq (Eval []) (Seq (Seq (Eval []) (If (Seq (Eval []) (Raise)) (Skip))) (Eval [])))))) (Seq (Eval []) (Return))));
  (** mpsci/distributions/negative_binomial.py:67-83 *)
  ("mpsci.distributions.negative_binomial.logpmf", With (ExtraDps (Num 5)) (Seq (Eval ["mpsci.distributions.negative_binomial._validate_params"]) (Seq (Eval ["mpsci.distributions._common._validate_int"]) (Seq (Seq (Eval []) (If (Seq (Eval []) (Return)) (Skip))) (Seq (Eval ["mpsci.fun._logbinomial.logbinomial"; "mpsci.fun._xlogy.xlog1py"; "mpsci.fun._xlogy.xlogy"]) (Return))))));
  (** mpsci/distributions/negative_binomial.py:86-98 *)
  ("mpsci.distributions.negative_binomial.pmf", With (ExtraDps (Num 5)) (Seq (Eval ["mpsci.distributions.negative_binomial.logpmf"]) (Return)));
  (** mpsci/distributions/negative_binomial.py:101-117 *)
  ("mpsci.distributions.negative_binomial.sf", With (ExtraDps (Num 5)) (Seq (Eval ["mpsci.distributions.negative_binomial._validate_params"]) (Seq (Eval ["mpsci.distributions._common._validate_int"]) (Seq (Seq (Eval []) (If (Seq (Eval []) (Return)) (Skip))) (Seq (Eval []) (Return))))));
  (** mpsci/distributions/negative_binomial.py:120-136 *)
  ("mpsci.distributions.negative_binomial.cdf", With (ExtraDps (Num 5)) (Seq (Eval ["mpsci.distributions.negative_binomial._validate_params"]) (Seq (Eval ["mpsci.distributions._common._validate_int"]) (Seq (Seq (Eval []) (If (Seq (Eval []) (Return)) (Skip))) (Seq (Eval []) (Return))))));
  (** mpsci/distributions/negative_binomial.py:139-152 *)
  ("mpsci.distributions.negative_binomial.mean", With (ExtraDps (Num 5)) (Seq (Eval ["mpsci.distributions.negative_binomial._validate_params"]) (Seq (Eval []) (Return))));
  (** mpsci/distributions/negative_binomial.py:155-163 *)
  ("mpsci.distributions.negative_binomial.mode", With (ExtraDps (Num 5)) (Seq (Eval ["mpsci.distributions.negative_binomial._validate_params"]) (Seq (Seq (Eval []) (If (Seq (Eval []) (Return)) (Skip))) (Seq (Eval []) (Return)))));
  (** mpsci/distributions/negative_binomial.py:166-179 *)
  ("mpsci.distributions.negative_binomial.var", With (ExtraDps (Num 5)) (Seq (Eval ["mpsci.distributions.negative_binomial._validate_params"]) (Seq (Eval []) (Return))));
  (** mpsci/distributions/negative_binomial.py:182-204 *)
  ("mpsci.distributions.negative_binomial.nll", With (ExtraDps (Num 5)) (Seq (Eval ["mpsci.distributions.negative_binomial._validate_params"]) (Seq (Eval ["mpsci.distributions.negative_binomial._validate_x"]) (Seq (Eval ["mpsci.distributions._common._validate_counts"]) (Seq (Eval ["mpsci.distributions.negative_binomial.logpmf"]) (Return))))));
  (** mpsci/distributions/negative_binomial.py:234-237 *)
  ("mpsci.distributions.negative_binomial.mle.<locals>.mle_r_eqn", Seq (Eval []) (Seq (Eval ["mpsci.stats._basic.mean"]) (Return)));
  (** mpsci/distributions/negative_binomial.py:260-262 *)
  ("mpsci.distributions.negative_binomial.mle.<locals>.mle_r_eqn", Seq (Eval ["mpsci.stats._basic.mean"]) (Return));
  (** mpsci/distributions/negative_binomial.py:207-276 *)
  ("mpsci.distributions.negative_binomial.mle", With (ExtraDps (Num 5)) (Seq (Eval ["mpsci.distributions.negative_binomial._validate_x"]) (Seq (Eval ["mpsci.distributions._common._validate_counts"]) (Seq (Eval []) (Seq (Eval []) (Seq (Seq (Eval []) (If (Seq (Eval []) (If (Seq (Eval ["mpsci.distributions.negative_binomial._validate_params"]) (Seq (Eval []) (Return))) (Seq (Eval ["mpsci.distributions.negative_binomial._validate_params"]) (Seq (Eval ["mpsci.stats._basic.mean"]) (Seq (Eval []) (Seq (Eval []) (Return))))))) (Skip))) (Seq (Eval []) (If (Seq (Eval ["mpsci.stats._basic.mean"]) (Seq (Eval []) (Seq (Eval ["?"; "mpsci.distributions.negative_binomial.mle.<locals>.mle_r_eqn"]) (Seq (Eval []) (Seq (Seq (Eval []) (If (Seq (Eval []) (Return)) (Skip))) (Seq (Eval []) (Seq (Eval []) (Seq (Eval []) (Seq (Eval []) (Seq (Eval ["mpsci.distributions.negative_binomial.nll"]) (Seq (Eval ["mpsci.distributions.negative_binomial.nll"]) (Seq (Eval []) (If (Seq (Eval []) (Return)) (Seq (Eval []) (Return))))))))))))))) (Seq (Eval ["mpsci.distributions.negative_binomial._validate_params"]) (Seq (Eval ["mpsci.stats._basic.mean"]) (Seq (Eval []) (Seq (Eval ["?"; "mpsci.distributions.negative_binomial.mle.<locals>.mle_r_eqn"]) (Seq (Seq (Eval []) (If (Seq (Eval []) (Return)) (Skip))) (Seq (Eval []) (Seq (Eval []) (Seq (Eval ["mpsci.distributions.negative_binomial.nll"]) (Seq (Eval ["mpsci.distributions.negative_binomial.nll"]) (Seq (Eval []) (If (Seq (Eval []) (Return)) (Seq (Eval []) (Return)))))))))))))))))))));
  (** mpsci/distributions/negative_binomial.py:1-277 *)
  ("mpsci.distributions.negative_binomial.<module>", Eval []);
  (** mpsci/distributions/negative_hypergeometric.py:20-26 *)
  ("mpsci.distributions.negative_hypergeometric._validate", Seq (Seq (Eval []) (If (Seq (Eval []) (Raise)) (Skip))) (Seq (Seq (Eval []) (If (Seq (Eval []) (Raise)) (Skip))) (Seq (Eval []) (If (Seq (Eval []) (Raise)) (Skip)))));
  (** mpsci/distributions/negative_hypergeometric.py:29-42 *)
  ("mpsci.distributions.negative_hypergeometric.pmf", With (ExtraDps (Num 5)) (Seq (Eval ["mpsci.distributions.negative_hypergeometric._validate"]) (Seq (Seq (Eval []) (If (Seq (Eval []) (Return)) (Skip))) (Seq (Eval []) (Seq (Eval []) (Seq (Eval []) (Seq (Eval []) (Return))))))));
  (** mpsci/distributions/negative_hypergeometric.py:45-58 *)
  ("mpsci.distributions.negative_hypergeometric.logpmf", With (ExtraDps (Num 5)) (Seq (Eval ["mpsci.distributions.negative_hypergeometric._validate"]) (Seq (Seq (Eval []) (If (Seq (Eval []) (Return)) (Skip))) (Seq (Eval ["mpsci.fun._logbinomial.logbinomial"]) (Seq (Eval ["mpsci.fun._logbinomial.logbinomial"]) (Seq (Eval ["mpsci.fun._logbinomial.logbinomial"]) (Seq (Eval []) (Return))))))));
  (** mpsci/distributions/negative_hypergeometric.py:61-71 *)
  ("mpsci.distributions.negative_hypergeometric.cdf", Seq (Eval ["mpsci.distributions.negative_hypergeometric._validate"]) (Seq (Seq (Eval []) (If (Seq (Eval []) (Return)) (Skip))) (Seq (Seq (Eval []) (If (Seq (Eval []) (Return)) (Skip))) (Seq (Eval ["mpsci.distributions.hypergeometric.sf"]) (Return)))));
  (** mpsci/distributions/negative_hypergeometric.py:74-84 *)
  ("mpsci.distributions.negative_hypergeometric.sf", Seq (Eval ["mpsci.distributions.negative_hypergeometric._validate"]) (Seq (Seq (Eval []) (If (Seq (Eval []) (Return)) (Skip))) (Seq (Seq (Eval []) (If (Seq (Eval []) (Return)) (Skip))) (Seq (Eval ["mpsci.distributions.hypergeometric.cdf"]) (Return)))));
  (** mpsci/distributions/negative_hypergeometric.py:87-94 *)
  ("mpsci.distributions.negative_hypergeometric.mean", With (ExtraDps (Num 5)) (Seq (Eval ["mpsci.distributions.negative_hypergeometric._validate"]) (Seq (Eval []) (Return))));
  (** mpsci/distributions/negative_hypergeometric.py:97-118 *)
  ("mpsci.distributions.negative_hypergeometric.mode", With (ExtraDps (Num 5)) (Seq (Eval ["mpsci.distributions.negative_hypergeometric._validate"]) (Seq (Seq (Eval []) (If (Seq (Eval []) (Return)) (Skip))) (Seq (Eval []) (Seq (Eval []) (Seq (Seq (Eval []) (If (Seq (Eval []) (Return)) (Skip))) (Seq (Eval []) (Seq (Seq (Eval []) (If (Seq (Eval []) (Return)) (Skip))) (Seq (Eval []) (Return))))))))));
  (** mpsci/distributions/negative_hypergeometric.py:121-132 *)
  ("mpsci.distributions.negative_hypergeometric.var", With (ExtraDps (Num 5)) (Seq (Eval ["mpsci.distributions.negative_hypergeometric._validate"]) (Seq (Eval []) (Seq (Eval []) (Seq (Eval []) (Seq (Eval []) (Return)))))));
  (** mpsci/distributions/negative_hypergeometric.py:135-151 *)
  ("mpsci.distributions.negative_hypergeometric.support", Seq (Eval ["mpsci.distributions.negative_hypergeometric._validate"]) (Seq (Seq (Eval []) (If (Eval []) (Eval []))) (Seq (Eval []) (Return))));
  (** mpsci/distributions/negative_hypergeometric.py:154-177 *)
  ("mpsci.distributions.negative_hypergeometric.support_pmf", Seq (Eval ["mpsci.distributions.negative_hypergeometric._validate"]) (Seq (Seq (Eval []) (If (Eval []) (Eval []))) (Seq (Eval []) (Seq (Eval []) (Seq (Seq (Eval []) (Loop (Eval ["mpsci.distributions.negative_hypergeometric.pmf"]))) (Seq (Eval []) (Return)))))));
  (** mpsci/distributions/negative_hypergeometric.py:1-178 *)
  ("mpsci.distributions.negative_hypergeometric.<module>", Eval []);
  (** mpsci/distributions/normal.py:15-22 *)
  ("mpsci.distributions.normal.pdf", With (ExtraDps (Num 5)) (Seq (Eval ["mpsci.distributions._common._validate_loc_scale"]) (Seq (Eval []) (Return))));
  (** mpsci/distributions/normal.py:25-34 *)
  ("mpsci.distributions.normal.logpdf", With (ExtraDps (Num 5)) (Seq (Eval []) (Seq (Eval ["mpsci.distributions._common._validate_loc_scale"]) (Seq (Eval []) (Seq (Eval []) (Return))))));
  (** mpsci/distributions/normal.py:37-44 *)
  ("mpsci.distributions.normal.cdf", With (ExtraDps (Num 5)) (Seq (Eval ["mpsci.distributions._common._validate_loc_scale"]) (Seq (Eval []) (Return))));
  (** mpsci/distributions/normal.py:47-54 *)
  ("mpsci.distributions.normal.sf", With (ExtraDps (Num 5)) (Seq (Eval []) (Seq (Eval ["mpsci.distributions._common._validate_loc_scale"]) (Seq (Eval []) (Return)))));
  (** mpsci/distributions/normal.py:57-69 *)
  ("mpsci.distributions.normal.invcdf", With (ExtraDps Dps) (Seq (Eval ["mpsci.distributions._common._validate_p"]) (Seq (Eval ["mpsci.distributions._common._validate_loc_scale"]) (Seq (Eval []) (Seq (Eval []) (Seq (Eval []) (Return)))))));
  (** mpsci/distributions/normal.py:72-81 *)
  ("mpsci.distributions.normal.invsf", With (ExtraDps Dps) (Seq (Eval ["mpsci.distributions._common._validate_p"]) (Seq (Eval ["mpsci.distributions._common._validate_loc_scale"]) (Seq (Eval []) (Seq (Eval []) (Seq (Eval []) (Return)))))));
  (** mpsci/distributions/normal.py:84-90 *)
  ("mpsci.distributions.normal.support", With (ExtraDps (Num 5)) (Seq (Eval ["mpsci.distributions._common._validate_loc_scale"]) (Seq (Eval []) (Return))));
  (** mpsci/distributions/normal.py:93-100 *)
  ("mpsci.distributions.normal.mean", Seq (Eval ["mpsci.distributions._common._validate_loc_scale"]) (Seq (Eval []) (Return)));
  (** mpsci/distributions/normal.py:103-110 *)
  ("mpsci.distributions.normal.median", Seq (Eval ["mpsci.distributions._common._validate_loc_scale"]) (Seq (Eval []) (Return)));
  (** mpsci/distributions/normal.py:113-120 *)
  ("mpsci.distributions.normal.mode", Seq (Eval ["mpsci.distributions._common._validate_loc_scale"]) (Seq (Eval []) (Return)));
  (** mpsci/distributions/normal.py:123-129 *)
  ("mpsci.distributions.normal.entropy", With (ExtraDps (Num 5)) (Seq (Eval ["mpsci.distributions._common._validate_loc_scale"]) (Seq (Eval []) (Return))));
  (** mpsci/distributions/normal.py:132-139 *)
  ("mpsci.distributions.normal.nll", With (ExtraDps (Num 5)) (Seq (Eval ["mpsci.distributions._common._seq_to_mp"]) (Seq (Eval ["mpsci.distributions._common._validate_loc_scale"]) (Seq (Eval ["mpsci.distributions.normal.logpdf"]) (Return)))));
  (** mpsci/distributions/normal.py:144-156 *)
  ("mpsci.distributions.normal.mle", With (ExtraDps (Num 5)) (Seq (Eval ["mpsci.distributions._common._seq_to_mp"]) (Seq (Eval []) (Seq (Eval []) (Seq (Eval []) (Seq (Eval []) (Seq (Eval []) (Return))))))));
  (** mpsci/distributions/normal.py:1-157 *)
  ("mpsci.distributions.normal.<module>", Eval []);
  (** mpsci/distributions/pareto.py:24-29 *)
  ("mpsci.distributions.pareto._validate_params", Seq (Seq (Eval []) (If (Seq (Eval []) (Raise)) (Skip))) (Seq (Seq (Eval []) (If (Seq (Eval []) (Raise)) (Skip))) (Seq (Eval []) (Return))));
  (** mpsci/distributions/pareto.py:32-44 *)
  ("mpsci.distributions.pareto.pdf", With (ExtraDps (Num 5)) (Seq (Eval ["mpsci.distributions.pareto._validate_params"]) (Seq (Eval []) (Seq (Eval []) (Seq (Seq (Eval []) (If (Seq (Eval []) (Return)) (Skip))) (Seq (Eval []) (Seq (Eval []) (Return))))))));
  (** mpsci/distributions/pareto.py:47-59 *)
  ("mpsci.distributions.pareto.logpdf", With (ExtraDps (Num 5)) (Seq (Eval ["mpsci.distributions.pareto._validate_params"]) (Seq (Eval []) (Seq (Eval []) (Seq (Seq (Eval []) (If (Seq (Eval []) (Return)) (Skip))) (Seq (Eval []) (Return)))))));
  (** mpsci/distributions/pareto.py:62-74 *)
  ("mpsci.distributions.pareto.cdf", With (ExtraDps (Num 5)) (Seq (Eval ["mpsci.distributions.pareto._validate_params"]) (Seq (Eval []) (Seq (Eval []) (Seq (Seq (Eval []) (If (Seq (Eval []) (Return)) (Skip))) (Seq (Eval []) (Seq (Eval []) (Return))))))));
  (** mpsci/distributions/pareto.py:77-85 *)
  ("mpsci.distributions.pareto.invcdf", With (ExtraDps (Num 5)) (Seq (Eval ["mpsci.distributions.pareto._validate_params"]) (Seq (Eval ["mpsci.distributions._common._validate_p"]) (Seq (Eval ["mpsci.fun._powm1.inv_powm1"]) (Return)))));
  (** mpsci/distributions/pareto.py:88-100 *)
  ("mpsci.distributions.pareto.sf", With (ExtraDps (Num 5)) (Seq (Eval ["mpsci.distributions.pareto._validate_params"]) (Seq (Eval []) (Seq (Eval []) (Seq (Seq (Eval []) (If (Seq (Eval []) (Return)) (Skip))) (Seq (Eval []) (Seq (Eval []) (Return))))))));
  (** mpsci/distributions/pareto.py:103-111 *)
  ("mpsci.distributions.pareto.invsf", With (ExtraDps (Num 5)) (Seq (Eval ["mpsci.distributions.pareto._validate_params"]) (Seq (Eval ["mpsci.distributions._common._validate_p"]) (Seq (Eval []) (Return)))));
  (** mpsci/distributions/pareto.py:114-121 *)
  ("mpsci.distributions.pareto.support", With (ExtraDps (Num 5)) (Seq (Eval ["mpsci.distributions.pareto._validate_params"]) (Seq (Eval []) (Return))));
  (** mpsci/distributions/pareto.py:124-133 *)
  ("mpsci.distributions.pareto.mean", With (ExtraDps (Num 5)) (Seq (Eval ["mpsci.distributions.pareto._validate_params"]) (Seq (Seq (Eval []) (If (Seq (Eval []) (Return)) (Skip))) (Seq (Eval []) (Return)))));
  (** mpsci/distributions/pareto.py:136-145 *)
  ("mpsci.distributions.pareto.var", With (ExtraDps (Num 5)) (Seq (Eval ["mpsci.distributions.pareto._validate_params"]) (Seq (Seq (Eval []) (If (Seq (Eval []) (Return)) (Skip))) (Seq (Eval []) (Return)))));
  (** mpsci/distributions/pareto.py:148-154 *)
  ("mpsci.distributions.pareto.entropy", With (ExtraDps (Num 5)) (Seq (Eval ["mpsci.distributions.pareto._validate_params"]) (Seq (Eval []) (Return))));
  (** mpsci/distributions/pareto.py:157-168 *)
  ("mpsci.distributions.pareto.nll", With (ExtraDps (Num 5)) (Seq (Eval ["mpsci.distributions.pareto._validate_params"]) (Seq (Eval ["mpsci.distributions._common._validate_x_bounds"]) (Seq (Eval ["mpsci.distributions.pareto.logpdf"]) (Return)))));
  (** mpsci/distributions/pareto.py:171-172 *)
  ("mpsci.distributions.pareto._is_fixed", Seq (Eval []) (Return));
  (** mpsci/distributions/pareto.py:205-210 *)
  ("mpsci.distributions.pareto.mle.<locals>.mle_eqns", Seq (Eval []) (Seq (Eval []) (Seq (Eval []) (Seq (Eval []) (Seq (Eval []) (Return))))));
  (** mpsci/distributions/pareto.py:244-246 *)
  ("mpsci.distributions.pareto.mle.<locals>.mle_eqn", Seq (Eval []) (Seq (Eval []) (Return)));
  (** mpsci/distributions/pareto.py:175-265 *)
  ("mpsci.distributions.pareto.mle", With (ExtraDps (Num 5)) (Seq (Eval ["mpsci.distributions.pareto._is_fixed"]) (Seq (Eval ["mpsci.distributions.pareto._is_fixed"]) (Seq (Eval ["mpsci.distributions.pareto._is_fixed"]) (Seq (Eval []) (Seq (Seq (Eval []) (If (Seq (Eval ["mpsci.distributions.pareto._validate_params"]) (Seq (Eval ["mpsci.distributions._common._validate_x_bounds"]) (Seq (Eval []) (Return)))) (Skip))) (Seq (Seq (Eval []) (If (Seq (Seq (Eval []) (If (Seq (Eval ["mpsci.distributions._common._validate_x_bounds"]) (Seq (Eval []) (Seq (Eval []) (Seq (Eval []) (Seq (Eval ["?"; "mpsci.distributions.pareto.mle.<locals>.mle_eqns"]) (Seq (Eval []) (Seq (Eval []) (Return)))))))) (Skip))) (Seq (Seq (Eval []) (If (Seq (Eval []) (Seq (Eval ["mpsci.distributions._common._validate_x_bounds"]) (Seq (Eval []) (Seq (Eval []) (Seq (Eval []) (Seq (Eval []) (Seq (Eval []) (Return)))))))) (Skip))) (Seq (Eval ["mpsci.distributions.pareto._validate_params"]) (Seq (Eval ["mpsci.distributions._common._validate_x_bounds"]) (Seq (Eval []) (Seq (Eval []) (Seq (Eval []) (Seq (Eval []) (Seq (Eval []) (Return)))))))))) (Skip))) (Seq (Seq (Eval []) (If (Seq (Eval ["mpsci.distributions.pareto._validate_params"]) (Seq (Eval ["mpsci.distributions._common._validate_x_bounds"]) (Seq (Eval []) (Seq (Eval []) (Seq (Eval ["?"; "mpsci.distributions.pareto.mle.<locals>.mle_eqn"]) (Seq (Eval []) (Seq (Eval []) (Return)))))))) (Skip))) (Seq (Seq (Eval []) (If (Seq (Eval ["mpsci.distributions.pareto._validate_params"]) (Seq (Eval ["mpsci.distributions._common._validate_x_bounds"]) (Seq (Eval []) (Seq (Eval []) (Seq (Eval []) (Return)))))) (Skip))) (Seq (Eval ["mpsci.distributions.pareto._validate_params"]) (Seq (Eval []) (Seq (Eval []) (Seq (Eval []) (Return))))))))))))));
  (** mpsci/distributions/pareto.py:1-266 *)
  ("mpsci.distributions.pareto.<module>", Eval []);
  (** mpsci/distributions/poisson.py:18-21 *)
  ("mpsci.distributions.poisson._validate_lam", Seq (Seq (Eval []) (If (Seq (Eval []) (Raise)) (Skip))) (Seq (Eval []) (Return)));
  (** mpsci/distributions/poisson.py:24-42 *)
  ("mpsci.distributions.poisson.support", Seq (Eval ["mpsci.distributions.poisson._validate_lam"]) (Seq (Eval []) (Return)));
  (** mpsci/distributions/poisson.py:45-53 *)
  ("mpsci.distributions.poisson.pmf", With (ExtraDps (Num 5)) (Seq (Eval ["mpsci.distributions.poisson._validate_lam"]) (Seq (Seq (Eval []) (If (Seq (Eval []) (Return)) (Skip))) (Seq (Eval []) (Return)))))
].
Definition table15 : program := [
  (** mpsci/distributions/poisson.py:56-64 *)
  ("mpsci.distributions.poisson.logpmf", With (ExtraDps (Num 5)) (Seq (Eval ["mpsci.distributions.poisson._validate_lam"]) (Seq (Seq (Eval []) (If (Seq (Eval []) (Return)) (Skip))) (Seq (Eval []) (Return)))));
  (** mpsci/distributions/poisson.py:67-75 *)
  ("mpsci.distributions.poisson.cdf", With (ExtraDps (Num 5)) (Seq (Eval ["mpsci.distributions.poisson._validate_lam"]) (Seq (Seq (Eval []) (If (Seq (Eval []) (Return)) (Skip))) (Seq (Eval []) (Return)))));
  (** mpsci/distributions/poisson.py:78-86 *)
  ("mpsci.distributions.poisson.sf", With (ExtraDps (Num 5)) (Seq (Eval ["mpsci.distributions.poisson._validate_lam"]) (Seq (Seq (Eval []) (If (Seq (Eval []) (Return)) (Skip))) (Seq (Eval []) (Return)))));
  (** mpsci/distributions/poisson.py:89-95 *)
  ("mpsci.distributions.poisson.mean", With (ExtraDps (Num 5)) (Seq (Eval ["mpsci.distributions.poisson._validate_lam"]) (Seq (Eval []) (Return))));
  (** mpsci/distributions/poisson.py:98-119 *)
  ("mpsci.distributions.poisson.mode", With (ExtraDps (Num 5)) (Seq (Eval ["mpsci.distributions.poisson._validate_lam"]) (Seq (Eval []) (Return))));
  (** mpsci/distributions/poisson.py:122-128 *)
  ("mpsci.distributions.poisson.var", With (ExtraDps (Num 5)) (Seq (Eval ["mpsci.distributions.poisson._validate_lam"]) (Seq (Eval []) (Return))));
  (** mpsci/distributions/poisson.py:131-137 *)
  ("mpsci.distributions.poisson.skewness", With (ExtraDps (Num 5)) (Seq (Eval ["mpsci.distributions.poisson._validate_lam"]) (Seq (Eval []) (Return))));
  (** mpsci/distributions/poisson.py:140-146 *)
  ("mpsci.distributions.poisson.kurtosis", With (ExtraDps (Num 5)) (Seq (Eval ["mpsci.distributions.poisson._validate_lam"]) (Seq (Eval []) (Return))));
  (** mpsci/distributions/poisson.py:149-162 *)
  ("mpsci.distributions.poisson.nll", With (ExtraDps (Num 5)) (Seq (Eval ["mpsci.distributions.poisson._validate_lam"]) (Seq (Eval ["mpsci.distributions._common._validate_x_bounds"]) (Seq (Seq (Eval []) (If (Seq (Eval []) (Raise)) (Skip))) (Seq (Eval ["mpsci.distributions._common._validate_counts"]) (Seq (Eval ["mpsci.distributions.poisson.logpmf"]) (Return)))))));
  (** mpsci/distributions/poisson.py:165-176 *)
  ("mpsci.distributions.poisson.mle", With (ExtraDps (Num 5)) (Seq (Eval ["mpsci.distributions._common._validate_counts"]) (Seq (Eval ["mpsci.stats._basic.mean"]) (Return))));
  (** mpsci/distributions/poisson.py:1-177 *)
  ("mpsci.distributions.poisson.<module>", Eval []);
  (** mpsci/distributions/power_normal.py:19-24 *)
  ("mpsci.distributions.power_normal._validate_params", Seq (Seq (Eval []) (If (Seq (Eval []) (Raise)) (Skip))) (Seq (Seq (Eval []) (If (Seq (Eval []) (Raise)) (Skip))) (Seq (Eval []) (Return))));
  (** mpsci/distributions/power_normal.py:27-35 *)
  ("mpsci.distributions.power_normal.pdf", With (ExtraDps (Num 5)) (Seq (Eval ["mpsci.distributions.power_normal._validate_params"]) (Seq (Eval []) (Seq (Eval []) (Seq (Eval []) (Return))))));
  (** mpsci/distributions/power_normal.py:38-49 *)
  ("mpsci.distributions.power_normal.logpdf", With (ExtraDps (Num 5)) (Seq (Eval ["mpsci.distributions.power_normal._validate_params"]) (Seq (Eval []) (Seq (Eval []) (Seq (Eval ["mpsci.distributions.normal.logpdf"]) (Return))))));
  (** mpsci/distributions/power_normal.py:52-60 *)
  ("mpsci.distributions.power_normal.cdf", With (ExtraDps (Num 5)) (Seq (Eval ["mpsci.distributions.power_normal._validate_params"]) (Seq (Eval []) (Seq (Eval []) (Seq (Eval []) (Return))))));
  (** mpsci/distributions/power_normal.py:63-72 *)
  ("mpsci.distributions.power_normal.invcdf", With (ExtraDps (Num 5)) (Seq (Eval ["mpsci.distributions.power_normal._validate_params"]) (Seq (Eval ["mpsci.distributions._common._validate_p"]) (Seq (Eval ["mpsci.distributions.normal.invcdf"]) (Return)))));
  (** mpsci/distributions/power_normal.py:75-83 *)
  ("mpsci.distributions.power_normal.sf", With (ExtraDps (Num 5)) (Seq (Eval ["mpsci.distributions.power_normal._validate_params"]) (Seq (Eval []) (Seq (Eval []) (Seq (Eval []) (Return))))));
  (** mpsci/distributions/power_normal.py:86-93 *)
  ("mpsci.distributions.power_normal.invsf", With (ExtraDps (Num 5)) (Seq (Eval ["mpsci.distributions.power_normal._validate_params"]) (Seq (Eval ["mpsci.distributions._common._validate_p"]) (Seq (Eval ["mpsci.distributions.normal.invcdf"]) (Return)))));
  (** mpsci/distributions/power_normal.py:96-101 *)
  ("mpsci.distributions.power_normal.support", Seq (Eval ["mpsci.distributions.power_normal._validate_params"]) (Seq (Eval []) (Return)));
  (** mpsci/distributions/power_normal.py:1-102 *)
  ("mpsci.distributions.power_normal.<module>", Eval []);
  (** mpsci/distributions/rel_breitwigner.py:38-43 *)
  ("mpsci.distributions.rel_breitwigner._validate_rho_scale", Seq (Seq (Eval []) (If (Seq (Eval []) (Raise)) (Skip))) (Seq (Seq (Eval []) (If (Seq (Eval []) (Raise)) (Skip))) (Seq (Eval []) (Return))));
  (** mpsci/distributions/rel_breitwigner.py:46-52 *)
  ("mpsci.distributions.rel_breitwigner._k", With (ExtraDps (Num 5)) (Seq (Eval []) (Seq (Eval []) (Seq (Eval []) (Seq (Eval []) (Return))))));
  (** mpsci/distributions/rel_breitwigner.py:55-67 *)
  ("mpsci.distributions.rel_breitwigner.pdf", With (ExtraDps (Num 5)) (Seq (Eval []) (Seq (Eval ["mpsci.distributions.rel_breitwigner._validate_rho_scale"]) (Seq (Seq (Eval []) (If (Seq (Eval []) (Return)) (Skip))) (Seq (Eval ["mpsci.distributions.rel_breitwigner._k"]) (Seq (Eval []) (Seq (Eval []) (Seq (Eval []) (Return)))))))));
  (** mpsci/distributions/rel_breitwigner.py:70-82 *)
  ("mpsci.distributions.rel_breitwigner.logpdf", With (ExtraDps (Num 5)) (Seq (Eval []) (Seq (Eval ["mpsci.distributions.rel_breitwigner._validate_rho_scale"]) (Seq (Seq (Eval []) (If (Seq (Eval []) (Return)) (Skip))) (Seq (Eval ["mpsci.distributions.rel_breitwigner._k"]) (Seq (Eval []) (Seq (Eval []) (Return))))))));
  (** mpsci/distributions/rel_breitwigner.py:85-99 *)
  ("mpsci.distributions.rel_breitwigner.cdf", With (ExtraDps (Num 5)) (Seq (Eval []) (Seq (Eval ["mpsci.distributions.rel_breitwigner._validate_rho_scale"]) (Seq (Seq (Eval []) (If (Seq (Eval []) (Return)) (Skip))) (Seq (Seq (Eval []) (If (Seq (Eval []) (Return)) (Skip))) (Seq (Eval []) (Seq (Eval ["mpsci.distributions.rel_breitwigner._k"]) (Seq (Eval []) (Seq (Eval []) (Return))))))))));
  (** mpsci/distributions/rel_breitwigner.py:112-112 *)
  ("mpsci.distributions.rel_breitwigner.invcdf.<lambda>@112", Eval ["mpsci.distributions.rel_breitwigner.cdf"]);
  (** mpsci/distributions/rel_breitwigner.py:113-113 *)
  ("mpsci.distributions.rel_breitwigner.invcdf.<lambda>@113", Eval ["mpsci.distributions.rel_breitwigner.cdf"]);
  (** mpsci/distributions/rel_breitwigner.py:102-114 *)
  ("mpsci.distributions.rel_breitwigner.invcdf", With (ExtraDps (Num 5)) (Seq (Eval ["mpsci.distributions._common._validate_p"]) (Seq (Eval ["mpsci.distributions.rel_breitwigner._validate_rho_scale"]) (Seq (Eval ["mpsci.distributions._common._find_bracket"; "mpsci.distributions.rel_breitwigner.invcdf.<lambda>@112"]) (Seq (Eval ["?"; "mpsci.distributions.rel_breitwigner.invcdf.<lambda>@113"]) (Seq (Eval []) (Return)))))));
  (** mpsci/distributions/rel_breitwigner.py:117-123 *)
  ("mpsci.distributions.rel_breitwigner.sf", With (ExtraDps Dps) (Seq (Eval ["mpsci.distributions.rel_breitwigner.cdf"]) (Return)));
  (** mpsci/distributions/rel_breitwigner.py:136-136 *)
  ("mpsci.distributions.rel_breitwigner.invsf.<lambda>@136", Eval ["mpsci.distributions.rel_breitwigner.sf"]);
  (** mpsci/distributions/rel_breitwigner.py:137-137 *)
  ("mpsci.distributions.rel_breitwigner.invsf.<lambda>@137", Eval ["mpsci.distributions.rel_breitwigner.sf"]);
  (** mpsci/distributions/rel_breitwigner.py:126-137 *)
  ("mpsci.distributions.rel_breitwigner.invsf", With (ExtraDps (Num 5)) (Seq (Eval ["mpsci.distributions._common._validate_p"]) (Seq (Eval ["mpsci.distributions.rel_breitwigner._validate_rho_scale"]) (Seq (Eval ["mpsci.distributions._common._find_bracket"; "mpsci.distributions.rel_breitwigner.invsf.<lambda>@136"]) (Seq (Eval ["?"; "mpsci.distributions.rel_breitwigner.invsf.<lambda>@137"]) (Return))))));
  (** mpsci/distributions/rel_breitwigner.py:140-145 *)
  ("mpsci.distributions.rel_breitwigner.support", Seq (Eval ["mpsci.distributions.rel_breitwigner._validate_rho_scale"]) (Seq (Eval []) (Return)));
  (** mpsci/distributions/rel_breitwigner.py:148-155 *)
  ("mpsci.distributions.rel_breitwigner.mean", With (ExtraDps (Num 5)) (Seq (Eval ["mpsci.distributions.rel_breitwigner._validate_rho_scale"]) (Seq (Eval ["mpsci.distributions.rel_breitwigner._k"]) (Seq (Eval []) (Return)))));
  (** mpsci/distributions/rel_breitwigner.py:158-164 *)
  ("mpsci.distributions.rel_breitwigner.var", With (ExtraDps (Num 5)) (Seq (Eval ["mpsci.distributions.rel_breitwigner._validate_rho_scale"]) (Seq (Eval ["mpsci.distributions.rel_breitwigner.noncentral_moment"; "mpsci.distributions.rel_breitwigner.mean"]) (Return))));
  (** mpsci/distributions/rel_breitwigner.py:167-173 *)
  ("mpsci.distributions.rel_breitwigner.mode", With (ExtraDps (Num 5)) (Seq (Eval ["mpsci.distributions.rel_breitwigner._validate_rho_scale"]) (Seq (Eval []) (Return))));
  (** mpsci/distributions/rel_breitwigner.py:176-195 *)
  ("mpsci.distributions.rel_breitwigner.noncentral_moment", With (ExtraDps (Num 5)) (Seq (Eval ["mpsci.distributions._common._validate_moment_n"]) (Seq (Eval ["mpsci.distributions.rel_breitwigner._validate_rho_scale"]) (Seq (Seq (Eval []) (If (Seq (Eval []) (Return)) (Skip))) (Seq (Seq (Eval []) (If (Seq (Eval ["mpsci.distributions.rel_breitwigner.mean"]) (Return)) (Skip))) (Seq (Seq (Eval []) (If (Seq (Eval []) (Seq (Eval ["mpsci.distributions.rel_breitwigner._k"]) (Seq (Eval []) (Seq (Eval ["mpsci.fun._powm1.pow1pm1"]) (Return))))) (Skip))) (Seq (Eval []) (Return))))))));
  (** mpsci/distributions/rel_breitwigner.py:1-196 *)
  ("mpsci.distributions.rel_breitwigner.<module>", Eval []);
  (** mpsci/distributions/rice.py:28-33 *)
  ("mpsci.distributions.rice._validate_params", Seq (Seq (Eval []) (If (Seq (Eval []) (Raise)) (Skip))) (Seq (Seq (Eval []) (If (Seq (Eval []) (Raise)) (Skip))) (Seq (Eval []) (Return))));
  (** mpsci/distributions/rice.py:36-48 *)
  ("mpsci.distributions.rice.pdf", With (ExtraDps (Num 5)) (Seq (Eval ["mpsci.distributions.rice._validate_params"]) (Seq (Eval []) (Seq (Seq (Eval []) (If (Seq (Eval []) (Return)) (Skip))) (Seq (Eval []) (Seq (Eval []) (Seq (Eval []) (Return))))))));
  (** mpsci/distributions/rice.py:51-66 *)
  ("mpsci.distributions.rice.logpdf", With (ExtraDps (Num 5)) (Seq (Eval ["mpsci.distributions.rice._validate_params"]) (Seq (Eval []) (Seq (Seq (Eval []) (If (Seq (Eval []) (Return)) (Skip))) (Seq (Eval []) (Seq (Eval []) (Seq (Eval []) (Return))))))));
  (** mpsci/distributions/rice.py:69-79 *)
  ("mpsci.distributions.rice.cdf", With (ExtraDps (Num 5)) (Seq (Eval ["mpsci.distributions.rice._validate_params"]) (Seq (Eval []) (Seq (Seq (Eval []) (If (Seq (Eval []) (Return)) (Skip))) (Seq (Eval ["mpsci.fun._marcumq.cmarcumq"]) (Seq (Eval []) (Return)))))));
  (** mpsci/distributions/rice.py:82-92 *)
  ("mpsci.distributions.rice.sf", With (ExtraDps (Num 5)) (Seq (Eval ["mpsci.distributions.rice._validate_params"]) (Seq (Eval []) (Seq (Seq (Eval []) (If (Seq (Eval []) (Return)) (Skip))) (Seq (Eval ["mpsci.fun._marcumq.marcumq"]) (Seq (Eval []) (Return)))))));
  (** mpsci/distributions/rice.py:95-101 *)
  ("mpsci.distributions.rice.support", With (ExtraDps (Num 5)) (Seq (Eval ["mpsci.distributions.rice._validate_params"]) (Seq (Eval []) (Return))));
  (** mpsci/distributions/rice.py:104-111 *)
  ("mpsci.distributions.rice.mean", With (ExtraDps (Num 5)) (Seq (Eval ["mpsci.distributions.rice._validate_params"]) (Seq (Eval []) (Return))));
  (** mpsci/distributions/rice.py:125-127 *)
  ("mpsci.distributions.rice.mode.<locals>.eq", Seq (Eval []) (Return));
  (** mpsci/distributions/rice.py:114-130 *)
  ("mpsci.distributions.rice.mode", With (ExtraDps (Num 5)) (Seq (Eval ["mpsci.distributions.rice._validate_params"]) (Seq (Eval []) (Seq (Eval ["?"; "mpsci.distributions.rice.mode.<locals>.eq"; "mpsci.distributions.rice.mean"]) (Seq (Eval []) (Return))))));
  (** mpsci/distributions/rice.py:133-139 *)
  ("mpsci.distributions.rice.var", With (ExtraDps (Num 5)) (Seq (Eval ["mpsci.distributions.rice._validate_params"]) (Seq (Eval ["mpsci.distributions.rice.noncentral_moment"; "mpsci.distributions.rice.mean"]) (Return))));
  (** mpsci/distributions/rice.py:142-157 *)
  ("mpsci.distributions.rice.noncentral_moment", With (ExtraDps (Num 5)) (Seq (Eval ["mpsci.distributions._common._validate_moment_n"]) (Seq (Eval ["mpsci.distributions.rice._validate_params"]) (Seq (Seq (Eval []) (If (Seq (Eval []) (Return)) (Skip))) (Seq (Eval []) (Seq (Eval []) (Seq (Eval []) (Seq (Eval []) (Seq (Eval []) (Return))))))))));
  (** mpsci/distributions/rice.py:1-158 *)
  ("mpsci.distributions.rice.<module>", Eval []);
  (** mpsci/distributions/slash.py:27-44 *)
  ("mpsci.distributions.slash._delta", Seq (Eval []) (Seq (Seq (Eval []) (If (Eval []) (Eval []))) (Seq (Eval []) (Return))));
  (** mpsci/distributions/slash.py:47-55 *)
  ("mpsci.distributions.slash.pdf", With (ExtraDps (Num 5)) (Seq (Seq (Eval []) (If (Seq (Eval []) (Return)) (Skip))) (Seq (Eval []) (Seq (Eval ["mpsci.distributions.slash._delta"]) (Return)))));
  (** mpsci/distributions/slash.py:58-67 *)
  ("mpsci.distributions.slash.logpdf", With (ExtraDps (Num 5)) (Seq (Seq (Eval []) (If (Seq (Eval ["mpsci.distributions.slash.pdf"]) (Return)) (Skip))) (Seq (Eval []) (Seq (Eval ["mpsci.distributions.slash._delta"]) (Seq (Eval []) (Return))))));
  (** mpsci/distributions/slash.py:70-79 *)
  ("mpsci.distributions.slash.cdf", With (ExtraDps (Num 5)) (Seq (Seq (Eval []) (If (Seq (Eval []) (Return)) (Skip))) (Seq (Eval []) (Seq (Eval ["mpsci.distributions.slash._delta"]) (Seq (Eval []) (Return))))));
  (** mpsci/distributions/slash.py:82-91 *)
  ("mpsci.distributions.slash.sf", With (ExtraDps (Num 5)) (Seq (Seq (Eval []) (If (Seq (Eval []) (Return)) (Skip))) (Seq (Eval []) (Seq (Eval ["mpsci.distributions.slash._delta"]) (Seq (Eval []) (Return))))));
  (** mpsci/distributions/slash.py:116-116 *)
  ("mpsci.distributions.slash.invcdf.<lambda>@116", Eval ["mpsci.distributions.slash.cdf"]);
  (** mpsci/distributions/slash.py:94-116 *)
  ("mpsci.distributions.slash.invcdf", With (ExtraDps (Num 5)) (Seq (Eval []) (Seq (Eval ["mpsci.distributions._common._validate_p"]) (Seq (Seq (Eval []) (If (Seq (Eval []) (Return)) (Skip))) (Seq (Seq (Eval []) (If (Seq (Eval []) (Return)) (Skip))) (Seq (Seq (Eval []) (If (Seq (Eval []) (Return)) (Skip))) (Seq (Seq (Eval []) (If (Eval []) (Eval []))) (Seq (Eval ["?"; "mpsci.distributions.slash.invcdf.<lambda>@116"]) (Return)))))))));
  (** mpsci/distributions/slash.py:139-139 *)
  ("mpsci.distributions.slash.invsf.<lambda>@139", Eval ["mpsci.distributions.slash.sf"]);
  (** mpsci/distributions/slash.py:119-139 *)
  ("mpsci.distributions.slash.invsf", With (ExtraDps (Num 5)) (Seq (Eval []) (Seq (Eval ["mpsci.distributions._common._validate_p"]) (Seq (Seq (Eval []) (If (Seq (Eval []) (Return)) (Skip))) (Seq (Seq (Eval []) (If (Seq (Eval []) (Return)) (Skip))) (Seq (Seq (Eval []) (If (Seq (Eval []) (Return)) (Skip))) (Seq (Seq (Eval []) (If (Eval []) (Eval []))) (Seq (Eval ["?"; "mpsci.distributions.slash.invsf.<lambda>@139"]) (Return)))))))));
  (** mpsci/distributions/slash.py:142-144 *)
  ("mpsci.distributions.slash.support", With (ExtraDps (Num 5)) (Seq (Eval []) (Return)))
].
Definition table16 : program := [
  (** mpsci/distributions/slash.py:147-153 *)
  ("mpsci.distributions.slash.mean", Seq (Eval []) (Return));
  (** mpsci/distributions/slash.py:156-162 *)
  ("mpsci.distributions.slash.mode", Seq (Eval []) (Return));
  (** mpsci/distributions/slash.py:1-163 *)
  ("mpsci.distributions.slash.<module>", Seq (Eval []) (Eval []));
  (** mpsci/distributions/studentt.py:14-18 *)
  ("mpsci.distributions.studentt._validate_df", Seq (Eval []) (Seq (Seq (Eval []) (If (Seq (Eval []) (Raise)) (Skip))) (Seq (Eval []) (Return))));
  (** mpsci/distributions/studentt.py:21-33 *)
  ("mpsci.distributions.studentt.logpdf", With (ExtraDps (Num 5)) (Seq (Eval ["mpsci.distributions.studentt._validate_df"]) (Seq (Eval []) (Seq (Eval []) (Seq (Eval []) (Seq (Eval []) (Return)))))));
  (** mpsci/distributions/studentt.py:36-41 *)
  ("mpsci.distributions.studentt.pdf", Seq (Eval ["mpsci.distributions.studentt._validate_df"]) (Seq (Eval ["mpsci.distributions.studentt.logpdf"]) (Return)));
  (** mpsci/distributions/studentt.py:44-59 *)
  ("mpsci.distributions.studentt.cdf", With (ExtraDps (Num 5)) (Seq (Eval ["mpsci.distributions.studentt._validate_df"]) (Seq (Eval []) (Seq (Seq (Eval []) (If (Seq (Eval []) (Return)) (Skip))) (Seq (Seq (Eval []) (If (Seq (Eval []) (Return)) (Skip))) (Seq (Eval []) (Seq (Eval []) (Seq (Eval []) (Seq (Eval []) (Seq (Eval []) (Return)))))))))));
  (** mpsci/distributions/studentt.py:62-77 *)
  ("mpsci.distributions.studentt.sf", With (ExtraDps (Num 5)) (Seq (Eval ["mpsci.distributions.studentt._validate_df"]) (Seq (Eval []) (Seq (Seq (Eval []) (If (Seq (Eval []) (Return)) (Skip))) (Seq (Seq (Eval []) (If (Seq (Eval []) (Return)) (Skip))) (Seq (Eval []) (Seq (Eval []) (Seq (Eval []) (Seq (Eval []) (Seq (Eval []) (Return)))))))))));
  (** mpsci/distributions/studentt.py:107-107 *)
  ("mpsci.distributions.studentt.invcdf.<lambda>@107", Eval ["mpsci.distributions.studentt.cdf"]);
  (** mpsci/distributions/studentt.py:111-112 *)
  ("mpsci.distributions.studentt.invcdf.<locals>._func", Seq (Eval ["mpsci.distributions.studentt.cdf"]) (Return));
  (** mpsci/distributions/studentt.py:80-118 *)
  ("mpsci.distributions.studentt.invcdf", With (ExtraDps (Num 5)) (Seq (Eval ["mpsci.distributions.studentt._validate_df"]) (Seq (Eval ["mpsci.distributions._common._validate_p"]) (Seq (Seq (Eval []) (If (Seq (Eval []) (Return)) (Skip))) (Seq (Seq (Eval []) (If (Seq (Eval []) (Return)) (Skip))) (Seq (Seq (Eval []) (If (Eval []) (Eval []))) (Seq (Eval ["mpsci.distributions._common._find_bracket"; "mpsci.distributions.studentt.invcdf.<lambda>@107"]) (Seq (Seq (Eval []) (If (Seq (Eval []) (Return)) (Skip))) (Seq (Eval ["?"; "mpsci.distributions.studentt.invcdf.<locals>._func"]) (Seq (Seq (Eval []) (If (Eval []) (Skip))) (Seq (Eval []) (Return))))))))))));
  (** mpsci/distributions/studentt.py:121-135 *)
  ("mpsci.distributions.studentt.invsf", Seq (Eval ["mpsci.distributions.studentt._validate_df"]) (Seq (Eval ["mpsci.distributions._common._validate_p"]) (Seq (Eval ["mpsci.distributions.studentt.invcdf"]) (Return))));
  (** mpsci/distributions/studentt.py:138-144 *)
  ("mpsci.distributions.studentt.support", With (ExtraDps (Num 5)) (Seq (Eval ["mpsci.distributions.studentt._validate_df"]) (Seq (Eval []) (Return))));
  (** mpsci/distributions/studentt.py:147-154 *)
  ("mpsci.distributions.studentt.mean", Seq (Eval ["mpsci.distributions.studentt._validate_df"]) (Seq (Eval []) (Return)));
  (** mpsci/distributions/studentt.py:157-164 *)
  ("mpsci.distributions.studentt.mode", Seq (Eval ["mpsci.distributions.studentt._validate_df"]) (Seq (Eval []) (Return)));
  (** mpsci/distributions/studentt.py:167-176 *)
  ("mpsci.distributions.studentt.entropy", With (ExtraDps (Num 5)) (Seq (Eval ["mpsci.distributions.studentt._validate_df"]) (Seq (Eval []) (Seq (Eval []) (Seq (Eval []) (Return))))));
  (** mpsci/distributions/studentt.py:1-177 *)
  ("mpsci.distributions.studentt.<module>", Eval []);
  (** mpsci/distributions/trunc_discrete_exp.py:28-35 *)
  ("mpsci.distributions.trunc_discrete_exp._validate_params", Seq (Seq (Eval []) (If (Seq (Eval []) (Raise)) (Skip))) (Seq (Seq (Eval []) (If (Seq (Eval []) (Raise)) (Skip))) (Seq (Seq (Eval []) (If (Seq (Eval []) (Raise)) (Skip))) (Seq (Eval []) (Return)))));
  (** mpsci/distributions/trunc_discrete_exp.py:38-55 *)
  ("mpsci.distributions.trunc_discrete_exp.support", Seq (Eval ["mpsci.distributions.trunc_discrete_exp._validate_params"]) (Seq (Eval []) (Return)));
  (** mpsci/distributions/trunc_discrete_exp.py:58-71 *)
  ("mpsci.distributions.trunc_discrete_exp.logpmf", With (ExtraDps (Num 5)) (Seq (Eval ["mpsci.distributions._common._validate_int"]) (Seq (Eval ["mpsci.distributions.trunc_discrete_exp._validate_params"]) (Seq (Seq (Eval []) (If (Seq (Eval []) (Return)) (Skip))) (Seq (Seq (Eval []) (If (Seq (Eval []) (Return)) (Skip))) (Seq (Seq (Eval []) (If (Seq (Eval []) (Return)) (Skip))) (Seq (Eval []) (Return))))))));
  (** mpsci/distributions/trunc_discrete_exp.py:74-87 *)
  ("mpsci.distributions.trunc_discrete_exp.pmf", With (ExtraDps (Num 5)) (Seq (Eval ["mpsci.distributions._common._validate_int"]) (Seq (Eval ["mpsci.distributions.trunc_discrete_exp._validate_params"]) (Seq (Seq (Eval []) (If (Seq (Eval []) (Return)) (Skip))) (Seq (Seq (Eval []) (If (Seq (Eval []) (Return)) (Skip))) (Seq (Seq (Eval []) (If (Seq (Eval []) (Return)) (Skip))) (Seq (Eval ["mpsci.distributions.trunc_discrete_exp.logpmf"]) (Return))))))));
  (** mpsci/distributions/trunc_discrete_exp.py:90-103 *)
  ("mpsci.distributions.trunc_discrete_exp.cdf", With (ExtraDps (Num 5)) (Seq (Eval ["mpsci.distributions._common._validate_int"]) (Seq (Eval ["mpsci.distributions.trunc_discrete_exp._validate_params"]) (Seq (Seq (Eval []) (If (Seq (Eval []) (Return)) (Skip))) (Seq (Seq (Eval []) (If (Seq (Eval []) (Return)) (Skip))) (Seq (Seq (Eval []) (If (Seq (Eval []) (Return)) (Skip))) (Seq (Eval []) (Return))))))));
  (** mpsci/distributions/trunc_discrete_exp.py:106-119 *)
  ("mpsci.distributions.trunc_discrete_exp.sf", With (ExtraDps (Num 5)) (Seq (Eval ["mpsci.distributions._common._validate_int"]) (Seq (Eval ["mpsci.distributions.trunc_discrete_exp._validate_params"]) (Seq (Seq (Eval []) (If (Seq (Eval []) (Return)) (Skip))) (Seq (Seq (Eval []) (If (Seq (Eval []) (Return)) (Skip))) (Seq (Seq (Eval []) (If (Seq (Eval []) (Return)) (Skip))) (Seq (Eval []) (Return))))))));
  (** mpsci/distributions/trunc_discrete_exp.py:122-131 *)
  ("mpsci.distributions.trunc_discrete_exp.mean", With (ExtraDps (Num 5)) (Seq (Eval ["mpsci.distributions.trunc_discrete_exp._validate_params"]) (Seq (Seq (Eval []) (If (Seq (Eval []) (Return)) (Skip))) (Seq (Eval []) (Seq (Eval []) (Return))))));
  (** mpsci/distributions/trunc_discrete_exp.py:134-141 *)
  ("mpsci.distributions.trunc_discrete_exp.mode", Seq (Eval []) (Return));
  (** mpsci/distributions/trunc_discrete_exp.py:144-153 *)
  ("mpsci.distributions.trunc_discrete_exp.var", With (ExtraDps (Num 5)) (Seq (Eval ["mpsci.distributions.trunc_discrete_exp._validate_params"]) (Seq (Seq (Eval []) (If (Seq (Eval []) (Return)) (Skip))) (Seq (Eval []) (Seq (Eval []) (Return))))));
  (** mpsci/distributions/trunc_discrete_exp.py:156-162 *)
  ("mpsci.distributions.trunc_discrete_exp.entropy", With (ExtraDps (Num 5)) (Seq (Eval ["mpsci.distributions.trunc_discrete_exp._validate_params"]) (Seq (Eval ["mpsci.distributions.trunc_discrete_exp.logpmf"; "mpsci.distributions.trunc_discrete_exp.mean"]) (Return))));
  (** mpsci/distributions/trunc_discrete_exp.py:1-163 *)
  ("mpsci.distributions.trunc_discrete_exp.<module>", Eval []);
  (** mpsci/distributions/truncnorm.py:19-22 *)
  ("mpsci.distributions.truncnorm._validate_params", Seq (Seq (Eval []) (If (Seq (Eval []) (Raise)) (Skip))) (Seq (Eval []) (Return)));
  (** mpsci/distributions/truncnorm.py:25-44 *)
  ("mpsci.distributions.truncnorm._norm_delta_cdf", With (ExtraDps (Num 5)) (Seq (Seq (Eval []) (If (Seq (Eval []) (Return)) (Skip))) (Seq (Seq (Eval []) (If (Seq (Eval []) (Return)) (Skip))) (Seq (Seq (Eval []) (If (Seq (Eval []) (Return)) (Skip))) (Seq (Seq (Eval []) (If (Seq (Eval []) (Return)) (Skip))) (Seq (Seq (Eval []) (If (Eval []) (Eval []))) (Seq (Eval []) (Return))))))));
  (** mpsci/distributions/truncnorm.py:47-57 *)
  ("mpsci.distributions.truncnorm.pdf", With (ExtraDps (Num 5)) (Seq (Eval ["mpsci.distributions.truncnorm._validate_params"]) (Seq (Eval []) (Seq (Seq (Eval []) (If (Seq (Eval []) (Return)) (Skip))) (Seq (Eval ["mpsci.distributions.truncnorm._norm_delta_cdf"]) (Seq (Eval []) (Return)))))));
  (** mpsci/distributions/truncnorm.py:60-70 *)
  ("mpsci.distributions.truncnorm.logpdf", With (ExtraDps (Num 5)) (Seq (Eval ["mpsci.distributions.truncnorm._validate_params"]) (Seq (Eval []) (Seq (Seq (Eval []) (If (Seq (Eval []) (Return)) (Skip))) (Seq (Eval ["mpsci.distributions.truncnorm._norm_delta_cdf"]) (Seq (Eval ["mpsci.distributions.normal.logpdf"]) (Return)))))));
  (** mpsci/distributions/truncnorm.py:73-84 *)
  ("mpsci.distributions.truncnorm.cdf", With (ExtraDps (Num 5)) (Seq (Eval ["mpsci.distributions.truncnorm._validate_params"]) (Seq (Eval []) (Seq (Seq (Eval []) (If (Seq (Eval []) (Return)) (Skip))) (Seq (Seq (Eval []) (If (Seq (Eval []) (Return)) (Skip))) (Seq (Eval ["mpsci.distributions.truncnorm._norm_delta_cdf"]) (Return)))))));
  (** mpsci/distributions/truncnorm.py:87-98 *)
  ("mpsci.distributions.truncnorm.sf", With (ExtraDps (Num 5)) (Seq (Eval ["mpsci.distributions.truncnorm._validate_params"]) (Seq (Eval []) (Seq (Seq (Eval []) (If (Seq (Eval []) (Return)) (Skip))) (Seq (Seq (Eval []) (If (Seq (Eval []) (Return)) (Skip))) (Seq (Eval ["mpsci.distributions.truncnorm._norm_delta_cdf"]) (Return)))))));
  (** mpsci/distributions/truncnorm.py:101-112 *)
  ("mpsci.distributions.truncnorm.invcdf", With (ExtraDps (Num 5)) (Seq (Eval ["mpsci.distributions._common._validate_p"]) (Seq (Eval ["mpsci.distributions.truncnorm._validate_params"]) (Seq (Eval ["mpsci.distributions.truncnorm._norm_delta_cdf"]) (Seq (Eval ["mpsci.distributions.normal.invcdf"]) (Return))))));
  (** mpsci/distributions/truncnorm.py:115-123 *)
  ("mpsci.distributions.truncnorm.invsf", With (ExtraDps (Num 5)) (Seq (Eval ["mpsci.distributions._common._validate_p"]) (Seq (Eval ["mpsci.distributions.truncnorm._validate_params"]) (Seq (Eval ["mpsci.distributions.truncnorm._norm_delta_cdf"]) (Seq (Eval ["mpsci.distributions.normal.invcdf"]) (Return))))));
  (** mpsci/distributions/truncnorm.py:126-132 *)
  ("mpsci.distributions.truncnorm.support", With (ExtraDps (Num 5)) (Seq (Eval ["mpsci.distributions.truncnorm._validate_params"]) (Seq (Eval []) (Return))));
  (** mpsci/distributions/truncnorm.py:135-141 *)
  ("mpsci.distributions.truncnorm.mean", With (ExtraDps (Num 5)) (Seq (Eval ["mpsci.distributions.truncnorm._validate_params"]) (Seq (Eval ["mpsci.distributions.truncnorm.pdf"]) (Return))));
  (** mpsci/distributions/truncnorm.py:144-150 *)
  ("mpsci.distributions.truncnorm.median", With (ExtraDps (Num 5)) (Seq (Eval ["mpsci.distributions.truncnorm._validate_params"]) (Seq (Eval ["mpsci.distributions.normal.invcdf"; "mpsci.distributions.normal.cdf"]) (Return))));
  (** mpsci/distributions/truncnorm.py:153-162 *)
  ("mpsci.distributions.truncnorm.mode", Seq (Eval ["mpsci.distributions.truncnorm._validate_params"]) (Seq (Seq (Eval []) (If (Seq (Eval []) (Return)) (Skip))) (Seq (Seq (Eval []) (If (Seq (Eval []) (Return)) (Skip))) (Seq (Eval []) (Return)))));
  (** mpsci/distributions/truncnorm.py:165-176 *)
  ("mpsci.distributions.truncnorm.var", With (ExtraDps (Num 5)) (Seq (Eval ["mpsci.distributions.truncnorm._validate_params"]) (Seq (Eval ["mpsci.distributions.truncnorm.pdf"]) (Seq (Eval ["mpsci.distributions.truncnorm.pdf"]) (Seq (Eval []) (Seq (Eval []) (Seq (Eval []) (Return))))))));
  (** mpsci/distributions/truncnorm.py:179-208 *)
  ("mpsci.distributions.truncnorm._noncentral_moments", With (ExtraDps (Num 5)) (Seq (Eval ["mpsci.distributions.truncnorm._validate_params"]) (Seq (Eval ["mpsci.distributions.truncnorm.pdf"]) (Seq (Eval ["mpsci.distributions.truncnorm.pdf"]) (Seq (Seq (Eval []) (If (Eval []) (Skip))) (Seq (Seq (Eval []) (If (Eval []) (Skip))) (Seq (Eval []) (Seq (Eval []) (Seq (Eval []) (Seq (Seq (Eval []) (If (Eval []) (Skip))) (Seq (Seq (Eval []) (Loop (Seq (Eval []) (Seq (Eval []) (Eval []))))) (Seq (Eval []) (Return)))))))))))));
  (** mpsci/distributions/truncnorm.py:211-226 *)
  ("mpsci.distributions.truncnorm.skewness", With (ExtraDps (Num 5)) (Seq (Eval ["mpsci.distributions.truncnorm._validate_params"]) (Seq (Eval ["mpsci.distributions.truncnorm._noncentral_moments"]) (Seq (Eval []) (Seq (Eval []) (Seq (Eval []) (Seq (Eval []) (Return))))))));
  (** mpsci/distributions/truncnorm.py:229-244 *)
  ("mpsci.distributions.truncnorm.kurtosis", With (ExtraDps (Num 5)) (Seq (Eval ["mpsci.distributions.truncnorm._validate_params"]) (Seq (Eval ["mpsci.distributions.truncnorm._noncentral_moments"]) (Seq (Eval []) (Seq (Eval []) (Seq (Eval []) (Seq (Eval []) (Return))))))));
  (** mpsci/distributions/truncnorm.py:247-250 *)
  ("mpsci.distributions.truncnorm._prod_x_npdfx", Seq (Seq (Eval []) (If (Seq (Eval []) (Return)) (Skip))) (Seq (Eval []) (Return)));
  (** mpsci/distributions/truncnorm.py:253-264 *)
  ("mpsci.distributions.truncnorm.entropy", With (ExtraDps (Num 5)) (Seq (Eval ["mpsci.distributions.truncnorm._validate_params"]) (Seq (Eval ["mpsci.distributions.truncnorm._norm_delta_cdf"]) (Seq (Eval []) (Seq (Eval ["mpsci.distributions.truncnorm._prod_x_npdfx"]) (Seq (Eval ["mpsci.distributions.truncnorm._prod_x_npdfx"]) (Seq (Eval []) (Seq (Eval []) (Return)))))))));
  (** mpsci/distributions/truncnorm.py:1-265 *)
  ("mpsci.distributions.truncnorm.<module>", Eval []);
  (** mpsci/distributions/tukeylambda.py:21-24 *)
  ("mpsci.distributions.tukeylambda._validate_params", Seq (Eval []) (Seq (Eval ["mpsci.distributions._common._validate_loc_scale"]) (Seq (Eval []) (Return))));
  (** mpsci/distributions/tukeylambda.py:27-40 *)
  ("mpsci.distributions.tukeylambda.pdf", With (ExtraDps (Num 5)) (Seq (Eval ["mpsci.distributions.tukeylambda._validate_params"]) (Seq (Eval []) (Seq (Seq (Eval []) (If (Seq (Eval []) (Seq (Eval []) (If (Seq (Eval []) (Return)) (Skip)))) (Skip))) (Seq (Eval ["mpsci.distributions.tukeylambda.cdf"]) (Seq (Eval []) (Seq (Eval []) (Return))))))));
  (** mpsci/distributions/tukeylambda.py:43-52 *)
  ("mpsci.distributions.tukeylambda.logpdf", With (ExtraDps (Num 5)) (Seq (Eval ["mpsci.distributions.tukeylambda._validate_params"]) (Seq (Eval ["mpsci.distributions.tukeylambda.pdf"]) (Return))));
  (** mpsci/distributions/tukeylambda.py:55-83 *)
  ("mpsci.distributions.tukeylambda._cdf_solver_bracket", Seq (Eval []) (Seq (Seq (Eval []) (If (Seq (Eval []) (If (Seq (Seq (Eval []) (If (Eval []) (Eval []))) (Seq (Eval []) (If (Eval []) (Eval [])))) (Seq (Seq (Eval []) (If (Eval []) (Eval []))) (Seq (Eval []) (If (Eval []) (Eval [])))))) (Seq (Eval []) (Eval [])))) (Seq (Eval []) (Return))));
  (** mpsci/distributions/tukeylambda.py:86-104 *)
  ("mpsci.distributions.tukeylambda._refine_bracket", Seq (Eval []) (Seq (Eval []) (Seq (Eval ["mpsci.distributions.tukeylambda.invcdf"]) (Seq (Eval ["mpsci.distributions.tukeylambda.invcdf"]) (Seq (Seq (Eval []) (Loop (Seq (Seq (Eval []) (Seq (Eval ["mpsci.distributions.tukeylambda.invcdf"]) (Seq (Seq (Eval []) (If (Seq (Eval []) (Return)) (Skip))) (Seq (Eval []) (If (Eval []) (Eval [])))))) (Eval [])))) (Seq (Eval []) (Return)))))));
  (** mpsci/distributions/tukeylambda.py:135-135 *)
  ("mpsci.distributions.tukeylambda.cdf.<lambda>@135", Eval ["mpsci.distributions.tukeylambda.invcdf"]);
  (** mpsci/distributions/tukeylambda.py:107-137 *)
  ("mpsci.distributions.tukeylambda.cdf", With (ExtraDps (Num 10)) (Seq (Eval []) (Seq (Eval ["mpsci.distributions.tukeylambda._validate_params"]) (Seq (Eval []) (Seq (Seq (Eval []) (If (Seq (Eval []) (Return)) (Skip))) (Seq (Seq (Eval []) (If (Seq (Eval []) (Seq (Seq (Eval []) (If (Seq (Eval []) (Return)) (Skip))) (Seq (Eval []) (If (Seq (Eval []) (Return)) (Skip))))) (Skip))) (Seq (Seq (Eval []) (If (Seq (Eval []) (Return)) (Skip))) (Seq (Eval ["mpsci.distributions.tukeylambda._cdf_solver_bracket"]) (Seq (Eval ["mpsci.distributions.tukeylambda._refine_bracket"]) (Seq (With (ExtraDps (Div (Add Dps (Num 1)) (Num 2))) (Eval ["mpsci.distributions.tukeylambda.cdf.<lambda>@135"])) (Seq (Eval []) (Return))))))))))));
  (** mpsci/distributions/tukeylambda.py:140-147 *)
  ("mpsci.distributions.tukeylambda.sf", Seq (Eval ["mpsci.distributions.tukeylambda.cdf"]) (Return));
  (** mpsci/distributions/tukeylambda.py:150-168 *)
  ("mpsci.distributions.tukeylambda.invcdf", With (ExtraDps (Num 10)) (Seq (Eval ["mpsci.distributions._common._validate_p"]) (Seq (Eval ["mpsci.distributions.tukeylambda._validate_params"]) (Seq (Seq (Eval []) (If (Seq (Seq (Eval []) (If (Seq (Eval []) (Return)) (Skip))) (Seq (Eval []) (If (Seq (Eval []) (Return)) (Skip)))) (Skip))) (Seq (Seq (Eval []) (If (Eval []) (Eval []))) (Seq (Eval []) (Return)))))));
  (** mpsci/distributions/tukeylambda.py:171-176 *)
  ("mpsci.distributions.tukeylambda.invsf", With (ExtraDps (Num 10)) (Seq (Eval ["mpsci.distributions.tukeylambda.invcdf"]) (Return)));
  (** mpsci/distributions/tukeylambda.py:179-188 *)
  ("mpsci.distributions.tukeylambda.support", With (ExtraDps (Num 5)) (Seq (Eval ["mpsci.distributions.tukeylambda._validate_params"]) (Seq (Eval []) (If (Seq (Eval []) (Return)) (Seq (Eval []) (Return))))));
  (** mpsci/distributions/tukeylambda.py:191-201 *)
  ("mpsci.distributions.tukeylambda.mean", Seq (Eval ["mpsci.distributions.tukeylambda._validate_params"]) (Seq (Seq (Eval []) (If (Seq (Eval []) (Return)) (Skip))) (Seq (Eval []) (Return))));
  (** mpsci/distributions/tukeylambda.py:204-219 *)
  ("mpsci.distributions.tukeylambda.var", With (ExtraDps (Num 5)) (Seq (Eval ["mpsci.distributions.tukeylambda._validate_params"]) (Seq (Seq (Eval []) (If (Seq (Eval []) (Return)) (Skip))) (Seq (Seq (Eval []) (If (Seq (Eval []) (Return)) (Skip))) (Seq (Eval []) (Seq (Eval []) (Seq (Eval []) (Seq (Eval []) (Return)))))))))
].
Definition table17 : program := [
  (** mpsci/distributions/tukeylambda.py:222-237 *)
  ("mpsci.distributions.tukeylambda._standard_noncentral_moment", With (ExtraDps (Num 5)) (Seq (Seq (Eval []) (If (Seq (Eval []) (Return)) (Skip))) (Seq (Seq (Eval []) (If (Seq (Eval []) (Return)) (Skip))) (Seq (Seq (Eval []) (If (Seq (Eval []) (Return)) (Skip))) (Seq (Eval []) (Seq (Eval []) (Seq (Eval []) (Return))))))));
  (** mpsci/distributions/tukeylambda.py:240-254 *)
  ("mpsci.distributions.tukeylambda.noncentral_moment", With (ExtraDps (Num 5)) (Seq (Eval ["mpsci.distributions._common._validate_moment_n"]) (Seq (Eval ["mpsci.distributions.tukeylambda._validate_params"]) (Seq (Seq (Eval []) (If (Seq (Eval []) (Return)) (Skip))) (Seq (Eval ["mpsci.distributions.tukeylambda._standard_noncentral_moment"]) (Seq (Eval []) (Return)))))));
  (** mpsci/distributions/tukeylambda.py:1-255 *)
  ("mpsci.distributions.tukeylambda.<module>", Eval []);
  (** mpsci/distributions/uniform.py:19-22 *)
  ("mpsci.distributions.uniform._validate", Seq (Seq (Eval []) (If (Seq (Eval []) (Raise)) (Skip))) (Seq (Eval []) (Return)));
  (** mpsci/distributions/uniform.py:25-34 *)
  ("mpsci.distributions.uniform.pdf", With (ExtraDps (Num 5)) (Seq (Eval ["mpsci.distributions.uniform._validate"]) (Seq (Eval []) (Seq (Seq (Eval []) (If (Seq (Eval []) (Return)) (Skip))) (Seq (Eval []) (Return))))));
  (** mpsci/distributions/uniform.py:37-46 *)
  ("mpsci.distributions.uniform.logpdf", With (ExtraDps (Num 5)) (Seq (Eval ["mpsci.distributions.uniform._validate"]) (Seq (Eval []) (Seq (Seq (Eval []) (If (Seq (Eval []) (Return)) (Skip))) (Seq (Eval []) (Return))))));
  (** mpsci/distributions/uniform.py:49-61 *)
  ("mpsci.distributions.uniform.cdf", With (ExtraDps (Num 5)) (Seq (Eval ["mpsci.distributions.uniform._validate"]) (Seq (Eval []) (Seq (Eval []) (If (Seq (Eval []) (Return)) (Seq (Eval []) (If (Seq (Eval []) (Return)) (Seq (Eval []) (Return)))))))));
  (** mpsci/distributions/uniform.py:64-76 *)
  ("mpsci.distributions.uniform.sf", With (ExtraDps (Num 5)) (Seq (Eval ["mpsci.distributions.uniform._validate"]) (Seq (Eval []) (Seq (Eval []) (If (Seq (Eval []) (Return)) (Seq (Eval []) (If (Seq (Eval []) (Return)) (Seq (Eval []) (Return)))))))));
  (** mpsci/distributions/uniform.py:79-90 *)
  ("mpsci.distributions.uniform.invcdf", With (ExtraDps (Num 5)) (Seq (Eval ["mpsci.distributions._common._validate_p"]) (Seq (Eval ["mpsci.distributions.uniform._validate"]) (Seq (Eval []) (Seq (Eval []) (Return))))));
  (** mpsci/distributions/uniform.py:93-101 *)
  ("mpsci.distributions.uniform.invsf", With (ExtraDps (Num 5)) (Seq (Eval ["mpsci.distributions._common._validate_p"]) (Seq (Eval ["mpsci.distributions.uniform._validate"]) (Seq (Eval []) (Seq (Eval []) (Return))))));
  (** mpsci/distributions/uniform.py:104-110 *)
  ("mpsci.distributions.uniform.support", With (ExtraDps (Num 5)) (Seq (Eval ["mpsci.distributions.uniform._validate"]) (Seq (Eval []) (Return))));
  (** mpsci/distributions/uniform.py:113-119 *)
  ("mpsci.distributions.uniform.mean", With (ExtraDps (Num 5)) (Seq (Eval ["mpsci.distributions.uniform._validate"]) (Seq (Eval []) (Return))));
  (** mpsci/distributions/uniform.py:122-128 *)
  ("mpsci.distributions.uniform.median", With (ExtraDps (Num 5)) (Seq (Eval ["mpsci.distributions.uniform._validate"]) (Seq (Eval []) (Return))));
  (** mpsci/distributions/uniform.py:131-137 *)
  ("mpsci.distributions.uniform.var", With (ExtraDps (Num 5)) (Seq (Eval ["mpsci.distributions.uniform._validate"]) (Seq (Eval []) (Return))));
  (** mpsci/distributions/uniform.py:140-146 *)
  ("mpsci.distributions.uniform.entropy", With (ExtraDps (Num 5)) (Seq (Eval ["mpsci.distributions.uniform._validate"]) (Seq (Eval []) (Return))));
  (** mpsci/distributions/uniform.py:149-160 *)
  ("mpsci.distributions.uniform.noncentral_moment", With (ExtraDps (Num 5)) (Seq (Eval ["mpsci.distributions._common._validate_moment_n"]) (Seq (Eval ["mpsci.distributions.uniform._validate"]) (Seq (Seq (Eval []) (If (Seq (Eval []) (Return)) (Skip))) (Seq (Eval []) (Return))))));
  (** mpsci/distributions/uniform.py:163-171 *)
  ("mpsci.distributions.uniform.mle", With (ExtraDps (Num 5)) (Seq (Eval ["mpsci.distributions._common._seq_to_mp"]) (Seq (Eval []) (Return))));
  (** mpsci/distributions/uniform.py:174-185 *)
  ("mpsci.distributions.uniform.mom", With (ExtraDps (Num 5)) (Seq (Eval ["mpsci.distributions._common._seq_to_mp"]) (Seq (Eval ["mpsci.stats._basic.mean"]) (Seq (Eval ["mpsci.stats._basic.mean"]) (Seq (Eval []) (Seq (Eval []) (Return)))))));
  (** mpsci/distributions/uniform.py:1-186 *)
  ("mpsci.distributions.uniform.<module>", Eval []);
  (** mpsci/distributions/vonmises.py:18-28 *)
  ("mpsci.distributions.vonmises.pdf", With (ExtraDps (Num 5)) (Seq (Eval []) (Seq (Eval []) (Seq (Eval []) (Seq (Eval []) (Seq (Eval []) (Seq (Eval []) (Return))))))));
  (** mpsci/distributions/vonmises.py:31-40 *)
  ("mpsci.distributions.vonmises.logpdf", With (ExtraDps (Num 5)) (Seq (Eval []) (Seq (Eval []) (Seq (Eval []) (Seq (Eval []) (Seq (Eval []) (Return)))))));
  (** mpsci/distributions/vonmises.py:43-49 *)
  ("mpsci.distributions.vonmises.circmean", Seq (Eval []) (Return));
  (** mpsci/distributions/vonmises.py:52-67 *)
  ("mpsci.distributions.vonmises.circvar", With (ExtraDps (Num 5)) (Seq (Eval []) (Seq (Eval []) (Seq (Eval []) (Seq (Eval []) (Return))))));
  (** mpsci/distributions/vonmises.py:70-84 *)
  ("mpsci.distributions.vonmises.support", With (ExtraDps (Num 5)) (Seq (Eval []) (Seq (Eval []) (Seq (Eval []) (Return)))));
  (** mpsci/distributions/vonmises.py:87-96 *)
  ("mpsci.distributions.vonmises.entropy", With (ExtraDps (Num 5)) (Seq (Eval []) (Seq (Eval []) (Seq (Eval []) (Seq (Eval []) (Seq (Eval []) (Return)))))));
  (** mpsci/distributions/vonmises.py:1-97 *)
  ("mpsci.distributions.vonmises.<module>", Eval []);
  (** mpsci/distributions/weibull_max.py:39-58 *)
  ("mpsci.distributions.weibull_max.pdf", With (ExtraDps (Num 5)) (Seq (Eval []) (Seq (Eval ["mpsci.distributions._weibull_common._validate_params"]) (Seq (Seq (Eval []) (If (Seq (Eval []) (If (Seq (Eval []) (Return)) (Seq (Eval []) (If (Seq (Eval []) (Return)) (Seq (Eval []) (Return)))))) (Skip))) (Seq (Seq (Eval []) (If (Seq (Eval []) (Return)) (Skip))) (Seq (Eval ["mpsci.distributions.weibull_max.logpdf"]) (Return)))))));
  (** mpsci/distributions/weibull_max.py:61-82 *)
  ("mpsci.distributions.weibull_max.logpdf", With (ExtraDps (Num 5)) (Seq (Eval []) (Seq (Eval ["mpsci.distributions._weibull_common._validate_params"]) (Seq (Seq (Eval []) (If (Seq (Eval []) (If (Seq (Eval []) (Return)) (Seq (Eval []) (If (Seq (Eval []) (Return)) (Seq (Eval []) (Return)))))) (Skip))) (Seq (Seq (Eval []) (If (Seq (Eval []) (Return)) (Skip))) (Seq (Eval []) (Seq (Eval []) (Return))))))));
  (** mpsci/distributions/weibull_max.py:85-98 *)
  ("mpsci.distributions.weibull_max.cdf", With (ExtraDps (Num 5)) (Seq (Eval []) (Seq (Eval ["mpsci.distributions._weibull_common._validate_params"]) (Seq (Seq (Eval []) (If (Seq (Eval []) (Return)) (Skip))) (Seq (Eval []) (Seq (Eval []) (Return)))))));
  (** mpsci/distributions/weibull_max.py:101-113 *)
  ("mpsci.distributions.weibull_max.invcdf", With (ExtraDps (Num 5)) (Seq (Eval ["mpsci.distributions._common._validate_p"]) (Seq (Eval ["mpsci.distributions._weibull_common._validate_params"]) (Seq (Eval []) (Seq (Eval []) (Seq (Eval []) (Return)))))));
  (** mpsci/distributions/weibull_max.py:116-129 *)
  ("mpsci.distributions.weibull_max.sf", With (ExtraDps (Num 5)) (Seq (Eval []) (Seq (Eval ["mpsci.distributions._weibull_common._validate_params"]) (Seq (Seq (Eval []) (If (Seq (Eval []) (Return)) (Skip))) (Seq (Eval []) (Seq (Eval []) (Return)))))));
  (** mpsci/distributions/weibull_max.py:132-144 *)
  ("mpsci.distributions.weibull_max.invsf", With (ExtraDps (Num 5)) (Seq (Eval ["mpsci.distributions._common._validate_p"]) (Seq (Eval ["mpsci.distributions._weibull_common._validate_params"]) (Seq (Eval []) (Seq (Eval []) (Seq (Eval []) (Return)))))));
  (** mpsci/distributions/weibull_max.py:147-156 *)
  ("mpsci.distributions.weibull_max.support", With (ExtraDps (Num 5)) (Seq (Eval ["mpsci.distributions._weibull_common._validate_params"]) (Seq (Eval []) (Return))));
  (** mpsci/distributions/weibull_max.py:159-169 *)
  ("mpsci.distributions.weibull_max.mode", With (ExtraDps (Num 5)) (Seq (Eval ["mpsci.distributions._weibull_common._validate_params"]) (Seq (Eval []) (Seq (Eval []) (Return)))));
  (** mpsci/distributions/weibull_max.py:172-181 *)
  ("mpsci.distributions.weibull_max.mean", With (ExtraDps (Num 5)) (Seq (Eval ["mpsci.distributions._weibull_common._validate_params"]) (Seq (Eval []) (Return))));
  (** mpsci/distributions/weibull_max.py:184-195 *)
  ("mpsci.distributions.weibull_max.var", With (ExtraDps (Num 5)) (Seq (Eval ["mpsci.distributions._weibull_common._validate_params"]) (Seq (Eval []) (Seq (Eval []) (Seq (Eval []) (Return))))));
  (** mpsci/distributions/weibull_max.py:198-210 *)
  ("mpsci.distributions.weibull_max.skewness", With (ExtraDps (Num 5)) (Seq (Eval ["mpsci.distributions._weibull_common._validate_params"]) (Seq (Eval []) (Seq (Eval []) (Seq (Eval []) (Seq (Eval []) (Return)))))));
  (** mpsci/distributions/weibull_max.py:213-227 *)
  ("mpsci.distributions.weibull_max.kurtosis", With (ExtraDps (Num 5)) (Seq (Eval ["mpsci.distributions._weibull_common._validate_params"]) (Seq (Eval []) (Seq (Eval []) (Seq (Eval []) (Seq (Eval []) (Seq (Eval []) (Seq (Eval []) (Return)))))))));
  (** mpsci/distributions/weibull_max.py:230-239 *)
  ("mpsci.distributions.weibull_max.entropy", With (ExtraDps (Num 5)) (Seq (Eval ["mpsci.distributions._weibull_common._validate_params"]) (Seq (Eval []) (Return))));
  (** mpsci/distributions/weibull_max.py:242-246 *)
  ("mpsci.distributions.weibull_max._standard_noncentral_moment", With (ExtraDps (Num 5)) (Seq (Seq (Eval []) (If (Seq (Eval []) (Return)) (Skip))) (Seq (Eval []) (Return))));
  (** mpsci/distributions/weibull_max.py:249-263 *)
  ("mpsci.distributions.weibull_max.noncentral_moment", With (ExtraDps (Num 5)) (Seq (Eval ["mpsci.distributions._common._validate_moment_n"]) (Seq (Eval ["mpsci.distributions._weibull_common._validate_params"]) (Seq (Seq (Eval []) (If (Seq (Eval []) (Return)) (Skip))) (Seq (Eval ["mpsci.distributions.weibull_max._standard_noncentral_moment"]) (Seq (Eval []) (Return)))))));
  (** mpsci/distributions/weibull_max.py:266-273 *)
  ("mpsci.distributions.weibull_max.nll", With (ExtraDps (Num 5)) (Seq (Eval ["mpsci.distributions._weibull_common._validate_params"]) (Seq (Eval ["mpsci.distributions._common._validate_x_bounds"]) (Seq (Eval ["mpsci.distributions.weibull_max.logpdf"]) (Return)))));
  (** mpsci/distributions/weibull_max.py:302-302 *)
  ("mpsci.distributions.weibull_max.mle.<lambda>@302", Eval ["mpsci.distributions._weibull_common._mle_k_eqn1"]);
  (** mpsci/distributions/weibull_max.py:320-320 *)
  ("mpsci.distributions.weibull_max.mle.<lambda>@320", Eval ["mpsci.distributions._weibull_common._mle_k_eqn2"]);
  (** mpsci/distributions/weibull_max.py:276-326 *)
  ("mpsci.distributions.weibull_max.mle", With (ExtraDps (Num 5)) (Seq (Seq (Eval []) (If (Seq (Eval []) (Raise)) (Skip))) (Seq (Eval ["mpsci.distributions._common._validate_x_bounds"]) (Seq (Eval []) (Seq (Eval []) (Seq (Seq (Eval []) (If (Seq (Eval []) (Raise)) (Skip))) (Seq (Seq (Eval []) (If (Seq (Eval []) (Raise)) (Skip))) (Seq (Seq (Eval []) (If (Seq (Eval ["?"; "mpsci.distributions.weibull_max.mle.<lambda>@302"]) (Eval ["mpsci.stats._basic.pmean"])) (Seq (Eval []) (If (Seq (Eval []) (Eval ["mpsci.stats._basic.pmean"])) (Seq (Eval []) (If (Seq (Eval []) (Seq (Eval ["mpsci.distributions._common._median"]) (Seq (Eval []) (Seq (Seq (Eval []) (If (Eval []) (Eval []))) (Eval ["?"; "mpsci.distributions.weibull_max.mle.<lambda>@320"]))))) (Seq (Eval []) (Eval [])))))))) (Seq (Eval []) (Return))))))))));
  (** mpsci/distributions/weibull_max.py:1-327 *)
  ("mpsci.distributions.weibull_max.<module>", Eval []);
  (** mpsci/distributions/weibull_min.py:39-58 *)
  ("mpsci.distributions.weibull_min.pdf", With (ExtraDps (Num 5)) (Seq (Eval []) (Seq (Eval ["mpsci.distributions._weibull_common._validate_params"]) (Seq (Seq (Eval []) (If (Seq (Eval []) (If (Seq (Eval []) (Return)) (Seq (Eval []) (If (Seq (Eval []) (Return)) (Seq (Eval []) (Return)))))) (Skip))) (Seq (Seq (Eval []) (If (Seq (Eval []) (Return)) (Skip))) (Seq (Eval ["mpsci.distributions.weibull_min.logpdf"]) (Return)))))));
  (** mpsci/distributions/weibull_min.py:61-82 *)
  ("mpsci.distributions.weibull_min.logpdf", With (ExtraDps (Num 5)) (Seq (Eval []) (Seq (Eval ["mpsci.distributions._weibull_common._validate_params"]) (Seq (Seq (Eval []) (If (Seq (Eval []) (If (Seq (Eval []) (Return)) (Seq (Eval []) (If (Seq (Eval []) (Return)) (Seq (Eval []) (Return)))))) (Skip))) (Seq (Seq (Eval []) (If (Seq (Eval []) (Return)) (Skip))) (Seq (Eval []) (Seq (Eval []) (Return))))))));
  (** mpsci/distributions/weibull_min.py:85-98 *)
  ("mpsci.distributions.weibull_min.cdf", With (ExtraDps (Num 5)) (Seq (Eval []) (Seq (Eval ["mpsci.distributions._weibull_common._validate_params"]) (Seq (Seq (Eval []) (If (Seq (Eval []) (Return)) (Skip))) (Seq (Eval []) (Seq (Eval []) (Return)))))));
  (** mpsci/distributions/weibull_min.py:101-113 *)
  ("mpsci.distributions.weibull_min.invcdf", With (ExtraDps (Num 5)) (Seq (Eval ["mpsci.distributions._common._validate_p"]) (Seq (Eval ["mpsci.distributions._weibull_common._validate_params"]) (Seq (Eval []) (Seq (Eval []) (Seq (Eval []) (Return)))))));
  (** mpsci/distributions/weibull_min.py:116-129 *)
  ("mpsci.distributions.weibull_min.sf", With (ExtraDps (Num 5)) (Seq (Eval []) (Seq (Eval ["mpsci.distributions._weibull_common._validate_params"]) (Seq (Seq (Eval []) (If (Seq (Eval []) (Return)) (Skip))) (Seq (Eval []) (Seq (Eval []) (Return)))))));
  (** mpsci/distributions/weibull_min.py:132-145 *)
  ("mpsci.distributions.weibull_min.invsf", With (ExtraDps (Num 5)) (Seq (Eval ["mpsci.distributions._common._validate_p"]) (Seq (Eval ["mpsci.distributions._weibull_common._validate_params"]) (Seq (Eval []) (Seq (Eval []) (Seq (Eval []) (Return)))))));
  (** mpsci/distributions/weibull_min.py:148-157 *)
  ("mpsci.distributions.weibull_min.support", With (ExtraDps (Num 5)) (Seq (Eval ["mpsci.distributions._weibull_common._validate_params"]) (Seq (Eval []) (Return))));
  (** mpsci/distributions/weibull_min.py:160-170 *)
  ("mpsci.distributions.weibull_min.mode", With (ExtraDps (Num 5)) (Seq (Eval ["mpsci.distributions._weibull_common._validate_params"]) (Seq (Eval []) (Seq (Eval []) (Return)))));
  (** mpsci/distributions/weibull_min.py:173-182 *)
  ("mpsci.distributions.weibull_min.mean", With (ExtraDps (Num 5)) (Seq (Eval ["mpsci.distributions._weibull_common._validate_params"]) (Seq (Eval []) (Return))));
  (** mpsci/distributions/weibull_min.py:185-196 *)
  ("mpsci.distributions.weibull_min.var", With (ExtraDps (Num 5)) (Seq (Eval ["mpsci.distributions._weibull_common._validate_params"]) (Seq (Eval []) (Seq (Eval []) (Seq (Eval []) (Return))))));
  (** mpsci/distributions/weibull_min.py:199-211 *)
  ("mpsci.distributions.weibull_min.skewness", With (ExtraDps (Num 5)) (Seq (Eval ["mpsci.distributions._weibull_common._validate_params"]) (Seq (Eval []) (Seq (Eval []) (Seq (Eval []) (Seq (Eval []) (Return)))))));
  (** mpsci/distributions/weibull_min.py:214-228 *)
  ("mpsci.distributions.weibull_min.kurtosis", With (ExtraDps (Num 5)) (Seq (Eval ["mpsci.distributions._weibull_common._validate_params"]) (Seq (Eval []) (Seq (Eval []) (Seq (Eval []) (Seq (Eval []) (Seq (Eval []) (Seq (Eval []) (Return)))))))));
  (** mpsci/distributions/weibull_min.py:231-240 *)
  ("mpsci.distributions.weibull_min.entropy", With (ExtraDps (Num 5)) (Seq (Eval ["mpsci.distributions._weibull_common._validate_params"]) (Seq (Eval []) (Return))));
  (** mpsci/distributions/weibull_min.py:243-247 *)
  ("mpsci.distributions.weibull_min._standard_noncentral_moment", With (ExtraDps (Num 5)) (Seq (Seq (Eval []) (If (Seq (Eval []) (Return)) (Skip))) (Seq (Eval []) (Return))))
].
Definition table18 : program := [
  (** mpsci/distributions/weibull_min.py:250-267 *)
  ("mpsci.distributions.weibull_min.noncentral_moment", With (ExtraDps (Num 5)) (Seq (Eval ["mpsci.distributions._common._validate_moment_n"]) (Seq (Eval ["mpsci.distributions._weibull_common._validate_params"]) (Seq (Seq (Eval []) (If (Seq (Eval []) (Return)) (Skip))) (Seq (Eval ["mpsci.distributions.weibull_min._standard_noncentral_moment"]) (Seq (Eval []) (Return)))))));
  (** mpsci/distributions/weibull_min.py:270-277 *)
  ("mpsci.distributions.weibull_min.nll", With (ExtraDps (Num 5)) (Seq (Eval ["mpsci.distributions._weibull_common._validate_params"]) (Seq (Eval ["mpsci.distributions._common._validate_x_bounds"]) (Seq (Eval ["mpsci.distributions.weibull_min.logpdf"]) (Return)))));
  (** mpsci/distributions/weibull_min.py:304-304 *)
  ("mpsci.distributions.weibull_min.mle.<lambda>@304", Eval ["mpsci.distributions._weibull_common._mle_k_eqn1"]);
  (** mpsci/distributions/weibull_min.py:322-322 *)
  ("mpsci.distributions.weibull_min.mle.<lambda>@322", Eval ["mpsci.distributions._weibull_common._mle_k_eqn2"]);
  (** mpsci/distributions/weibull_min.py:280-328 *)
  ("mpsci.distributions.weibull_min.mle", With (ExtraDps (Num 5)) (Seq (Seq (Eval []) (If (Seq (Eval []) (Raise)) (Skip))) (Seq (Eval ["mpsci.distributions._common._validate_x_bounds"]) (Seq (Eval []) (Seq (Eval []) (Seq (Seq (Eval []) (If (Seq (Eval []) (Raise)) (Skip))) (Seq (Seq (Eval []) (If (Seq (Eval []) (Raise)) (Skip))) (Seq (Seq (Eval []) (If (Seq (Eval ["?"; "mpsci.distributions.weibull_min.mle.<lambda>@304"]) (Eval ["mpsci.stats._basic.pmean"])) (Seq (Eval []) (If (Seq (Eval []) (Eval ["mpsci.stats._basic.pmean"])) (Seq (Eval []) (If (Seq (Eval []) (Seq (Eval ["mpsci.distributions._common._median"]) (Seq (Eval []) (Seq (Seq (Eval []) (If (Eval []) (Eval []))) (Eval ["?"; "mpsci.distributions.weibull_min.mle.<lambda>@322"]))))) (Seq (Eval []) (Eval [])))))))) (Seq (Eval []) (Return))))))))));
  (** mpsci/distributions/weibull_min.py:1-329 *)
  ("mpsci.distributions.weibull_min.<module>", Eval []);
  (** mpsci/fun/__init__.py:1-24 *)
  ("mpsci.fun.<module>", Skip);
  (** mpsci/fun/_debye.py:39-44 *)
  ("mpsci.fun._debye.debye.<locals>.integrand", Seq (Seq (Eval []) (If (Seq (Seq (Eval []) (If (Seq (Eval []) (Return)) (Skip))) (Seq (Eval []) (Return))) (Skip))) (Seq (Eval []) (Return)));
  (** mpsci/fun/_debye.py:50-52 *)
  ("mpsci.fun._debye.debye.<locals>.term", Seq (Eval []) (Seq (Eval []) (Return)));
  (** mpsci/fun/_debye.py:5-54 *)
  ("mpsci.fun._debye.debye", Seq (Try (Eval []) (Seq (Eval []) (Raise)) (Skip)) (Seq (Seq (Eval []) (If (Seq (Eval []) (Raise)) (Skip))) (Seq (Seq (Eval []) (If (Seq (Eval []) (Raise)) (Skip))) (Seq (Eval []) (Seq (Seq (Eval []) (If (Seq (Eval []) (Return)) (Skip))) (Seq (Seq (Eval []) (If (Seq (Eval ["?"; "mpsci.fun._debye.debye.<locals>.integrand"]) (Return)) (Skip))) (Seq (Eval ["mpsci.fun._debye.debye.<locals>.term"]) (Return))))))));
  (** mpsci/fun/_debye.py:1-62 *)
  ("mpsci.fun._debye.<module>", Eval []);
  (** mpsci/fun/_digammainv.py:55-55 *)
  ("mpsci.fun._digammainv.digammainv.<lambda>@55", Eval []);
  (** mpsci/fun/_digammainv.py:7-57 *)
  ("mpsci.fun._digammainv.digammainv", With (ExtraDps (Num 5)) (Seq (Eval []) (Seq (Seq (Eval []) (If (Eval []) (Seq (Eval []) (If (Eval []) (Eval []))))) (Seq (Eval []) (Seq (Eval []) (Seq (Eval ["?"; "mpsci.fun._digammainv.digammainv.<lambda>@55"]) (Seq (Eval []) (Return))))))));
  (** mpsci/fun/_digammainv.py:1-63 *)
  ("mpsci.fun._digammainv.<module>", Seq (Eval []) (Eval []));
  (** mpsci/fun/_faddeevaw.py:4-29 *)
  ("mpsci.fun._faddeevaw.faddeevaw", Seq (Eval []) (Seq (Eval []) (Return)));
  (** mpsci/fun/_faddeevaw.py:1-35 *)
  ("mpsci.fun._faddeevaw.<module>", Eval []);
  (** mpsci/fun/_hermite_e.py:8-15 *)
  ("mpsci.fun._hermite_e.hermite_e", With (ExtraDps (Num 5)) (Seq (Eval []) (Seq (Eval []) (Seq (Eval []) (Return)))));
  (** mpsci/fun/_hermite_e.py:1-16 *)
  ("mpsci.fun._hermite_e.<module>", Skip);
  (** mpsci/fun/_inv_reg_inc_beta.py:4-25 *)
  ("mpsci.fun._inv_reg_inc_beta.mp_bisect", Seq (Eval []) (Seq (Eval []) (Seq (Eval ["?"]) (Seq (Seq (Eval []) (If (Seq (Eval []) (Return)) (Skip))) (Seq (Eval ["?"]) (Seq (Seq (Eval []) (If (Seq (Eval []) (Return)) (Skip))) (Seq (Seq (Eval []) (If (Seq (Eval []) (Raise)) (Skip))) (Seq (Eval []) (Loop (Seq (Seq (Eval []) (Seq (Eval ["?"]) (Seq (Seq (Eval []) (If (Seq (Eval []) (Return)) (Skip))) (Seq (Eval []) (If (Seq (Eval []) (Eval [])) (Seq (Eval []) (Eval []))))))) (Eval [])))))))))));
  (** mpsci/fun/_inv_reg_inc_beta.py:104-105 *)
  ("mpsci.fun._inv_reg_inc_beta.betaincinv.<locals>.func", Seq (Eval []) (Return));
  (** mpsci/fun/_inv_reg_inc_beta.py:109-110 *)
  ("mpsci.fun._inv_reg_inc_beta.betaincinv.<locals>.func", Seq (Eval []) (Return));
  (** mpsci/fun/_inv_reg_inc_beta.py:28-127 *)
  ("mpsci.fun._inv_reg_inc_beta.betaincinv", Seq (Seq (Eval []) (If (Seq (Eval []) (Return)) (Skip))) (Seq (Seq (Eval []) (If (Seq (Eval []) (Return)) (Skip))) (Seq (Seq (Eval []) (If (Seq (Eval []) (Return)) (Skip))) (Seq (Eval []) (Seq (Eval []) (Seq (Eval []) (Seq (Seq (Eval []) (If (Seq (Eval []) (If (Seq (Eval []) (Eval [])) (Seq (Eval []) (If (Seq (Eval []) (Eval [])) (Skip))))) (Skip))) (Seq (Seq (Eval []) (If (Seq (Eval []) (Raise)) (Skip))) (Seq (Seq (Eval []) (If (Skip) (Skip))) (Seq (Eval []) (If (Try (Seq (Eval ["mpsci.fun._inv_reg_inc_beta.mp_bisect"; "mpsci.fun._inv_reg_inc_beta.betaincinv.<locals>.func"]) (Return)) (Seq (Eval []) (Raise)) (Skip)) (Seq (Try (Eval ["?"; "mpsci.fun._inv_reg_inc_beta.betaincinv.<locals>.func"]) (Seq (Eval []) (Raise)) (Skip)) (Seq (Seq (Eval []) (If (Seq (Eval []) (Raise)) (Skip))) (Seq (Eval []) (Return)))))))))))))));
  (** mpsci/fun/_inv_reg_inc_beta.py:1-128 *)
  ("mpsci.fun._inv_reg_inc_beta.<module>", Skip);
  (** mpsci/fun/_legendre.py:5-12 *)
  ("mpsci.fun._legendre._root_approx", With (ExtraDps (Num 5)) (Seq (Eval []) (Seq (Eval []) (Seq (Eval []) (Seq (Eval []) (Seq (Eval []) (Return)))))));
  (** mpsci/fun/_legendre.py:77-77 *)
  ("mpsci.fun._legendre.roots_legendre.<lambda>@77", Eval []);
  (** mpsci/fun/_legendre.py:79-79 *)
  ("mpsci.fun._legendre.roots_legendre.<lambda>@79", Eval []);
  (** mpsci/fun/_legendre.py:86-86 *)
  ("mpsci.fun._legendre.roots_legendre.<lambda>@86", Eval []);
  (** mpsci/fun/_legendre.py:15-92 *)
  ("mpsci.fun._legendre.roots_legendre", With (ExtraDps (Num 5)) (Seq (Eval []) (Seq (Seq (Eval []) (If (Seq (Eval []) (Raise)) (Skip))) (Seq (Seq (Eval []) (If (Seq (Eval []) (Return)) (Skip))) (Seq (Seq (Eval []) (If (Seq (Eval []) (Seq (Eval []) (Seq (Eval []) (Return)))) (Skip))) (Seq (Seq (Eval []) (If (Seq (Eval []) (Seq (Eval []) (Seq (Eval []) (Seq (Eval []) (Return))))) (Skip))) (Seq (Eval ["mpsci.fun._legendre._root_approx"]) (Seq (Eval ["?"; "mpsci.fun._legendre.roots_legendre.<lambda>@77"]) (Seq (Eval ["?"; "mpsci.fun._legendre.roots_legendre.<lambda>@79"]) (Seq (Eval []) (Seq (Seq (Eval []) (If (Seq (Eval []) (Seq (Eval []) (Seq (Eval ["?"; "mpsci.fun._legendre.roots_legendre.<lambda>@86"]) (Eval [])))) (Seq (Eval []) (Eval [])))) (Seq (Eval []) (Return)))))))))))));
  (** mpsci/fun/_legendre.py:1-93 *)
  ("mpsci.fun._legendre.<module>", Skip);
  (** mpsci/fun/_logbeta.py:9-36 *)
  ("mpsci.fun._logbeta.logbeta", With (ExtraDps (Num 5)) (Seq (Eval []) (Return)));
  (** mpsci/fun/_logbeta.py:52-76 *)
  ("mpsci.fun._logbeta.multivariate_logbeta", With (ExtraDps (Num 5)) (Seq (Eval []) (Seq (Eval []) (Seq (Eval []) (Return)))));
  (** mpsci/fun/_logbeta.py:1-90 *)
  ("mpsci.fun._logbeta.<module>", Seq (Eval []) (Seq (Eval []) (Seq (Eval []) (Seq (Eval []) (Eval [])))));
  (** mpsci/fun/_logbinomial.py:7-37 *)
  ("mpsci.fun._logbinomial.logbinomial", With (ExtraDps (Num 5)) (Seq (Seq (Eval []) (If (Seq (Eval []) (Raise)) (Skip))) (Seq (Seq (Eval []) (If (Seq (Eval []) (Raise)) (Skip))) (Seq (Seq (Eval []) (If (Seq (Eval []) (Raise)) (Skip))) (Seq (Eval []) (Return))))));
  (** mpsci/fun/_logbinomial.py:1-38 *)
  ("mpsci.fun._logbinomial.<module>", Eval []);
  (** mpsci/fun/_logsumexp.py:7-51 *)
  ("mpsci.fun._logsumexp.logsumexp", With (ExtraDps (Num 5)) (Seq (Eval []) (Seq (Eval []) (Seq (Seq (Eval []) (If (Eval []) (Seq (Eval []) (Eval [])))) (Seq (Eval []) (Return))))));
  (** mpsci/fun/_logsumexp.py:1-52 *)
  ("mpsci.fun._logsumexp.<module>", Eval []);
  (** mpsci/fun/_marcumq.py:8-10 *)
  ("mpsci.fun._marcumq._integrand", Seq (Eval []) (Seq (Eval []) (Return)));
  (** mpsci/fun/_marcumq.py:51-51 *)
  ("mpsci.fun._marcumq.marcumq.<lambda>@51", Eval ["mpsci.fun._marcumq._integrand"]);
  (** mpsci/fun/_marcumq.py:13-52 *)
  ("mpsci.fun._marcumq.marcumq", Seq (Seq (Eval []) (If (Seq (Eval []) (If (Eval []) (Eval []))) (Seq (Eval []) (If (Eval []) (Eval ["?"; "mpsci.fun._marcumq.marcumq.<lambda>@51"]))))) (Seq (Eval []) (Return)));
  (** mpsci/fun/_marcumq.py:89-89 *)
  ("mpsci.fun._marcumq.cmarcumq.<lambda>@89", Eval ["mpsci.fun._marcumq._integrand"]);
  (** mpsci/fun/_marcumq.py:69-90 *)
  ("mpsci.fun._marcumq.cmarcumq", Seq (Seq (Eval []) (If (Seq (Eval []) (If (Eval []) (Eval []))) (Seq (Eval []) (If (Eval []) (Eval ["?"; "mpsci.fun._marcumq.cmarcumq.<lambda>@89"]))))) (Seq (Eval []) (Return)));
  (** mpsci/fun/_marcumq.py:1-91 *)
  ("mpsci.fun._marcumq.<module>", Seq (Eval []) (Eval []));
  (** mpsci/fun/_powm1.py:5-18 *)
  ("mpsci.fun._powm1.inv_powm1", With (ExtraDps (Num 5)) (Seq (Seq (Eval []) (If (Seq (Eval []) (Raise)) (Skip))) (Seq (Seq (Eval []) (If (Seq (Eval []) (Raise)) (Skip))) (Seq (Eval []) (Seq (Eval []) (Seq (Eval ["mpsci.fun._xlogy.xlog1py"]) (Return)))))));
  (** mpsci/fun/_powm1.py:21-50 *)
  ("mpsci.fun._powm1.pow1pm1", With (ExtraDps (Num 5)) (Seq (Eval []) (Seq (Eval []) (Seq (Eval ["mpsci.fun._xlogy.xlog1py"]) (Return)))));
  (** mpsci/fun/_powm1.py:58-71 *)
  ("mpsci.fun._powm1.inv_pow1pm1", With (ExtraDps (Num 5)) (Seq (Seq (Eval []) (If (Seq (Eval []) (Raise)) (Skip))) (Seq (Seq (Eval []) (If (Seq (Eval []) (Raise)) (Skip))) (Seq (Eval []) (Seq (Eval []) (Seq (Eval ["mpsci.fun._xlogy.xlog1py"]) (Return)))))));
  (** mpsci/fun/_powm1.py:1-72 *)
  ("mpsci.fun._powm1.<module>", Eval []);
  (** mpsci/fun/_spherical_bessel.py:5-14 *)
  ("mpsci.fun._spherical_bessel.spherical_besselj", With (ExtraDps (Num 5)) (Seq (Eval []) (Seq (Eval []) (Seq (Eval []) (Return)))));
  (** mpsci/fun/_spherical_bessel.py:17-26 *)
  ("mpsci.fun._spherical_bessel.spherical_bessely", With (ExtraDps (Num 5)) (Seq (Eval []) (Seq (Eval []) (Seq (Eval []) (Return)))));
  (** mpsci/fun/_spherical_bessel.py:29-38 *)
  ("mpsci.fun._spherical_bessel.spherical_besseli", With (ExtraDps (Num 5)) (Seq (Eval []) (Seq (Eval []) (Seq (Eval []) (Return)))));
  (** mpsci/fun/_spherical_bessel.py:41-50 *)
  ("mpsci.fun._spherical_bessel.spherical_besselk", With (ExtraDps (Num 5)) (Seq (Eval []) (Seq (Eval []) (Seq (Eval []) (Return)))));
  (** mpsci/fun/_spherical_bessel.py:1-51 *)
  ("mpsci.fun._spherical_bessel.<module>", Skip);
  (** mpsci/fun/_wright_bessel.py:5-12 *)
  ("mpsci.fun._wright_bessel._wright_bessel_term", Seq (Eval []) (Seq (Try (Eval []) (Seq (Eval []) (Return)) (Skip)) (Seq (Eval []) (Seq (Eval []) (Return)))));
  (** mpsci/fun/_wright_bessel.py:64-64 *)
  ("mpsci.fun._wright_bessel.wright_bessel.<lambda>@64", Eval ["mpsci.fun._wright_bessel._wright_bessel_term"]);
  (** mpsci/fun/_wright_bessel.py:15-65 *)
  ("mpsci.fun._wright_bessel.wright_bessel", With (ExtraDps (Num 5)) (Seq (Eval []) (Seq (Eval []) (Seq (Seq (Eval []) (If (Seq (Eval []) (Raise)) (Skip))) (Seq (Eval []) (Seq (Try (Eval []) (Eval []) (Skip)) (Seq (Seq (Eval []) (If (Seq (Eval []) (Return)) (Skip))) (Seq (Seq (Eval []) (If (Seq (Eval []) (Return)) (Skip))) (Seq (Seq (Eval []) (If (Seq (Eval []) (Seq (Eval []) (Return))) (Skip))) (Seq (Eval ["?"; "mpsci.fun._wright_bessel.wright_bessel.<lambda>@64"]) (Return)))))))))));
  (** mpsci/fun/_wright_bessel.py:1-66 *)
  ("mpsci.fun._wright_bessel.<module>", Skip);
  (** mpsci/fun/_xlogy.py:8-20 *)
  ("mpsci.fun._xlogy.xlogy", Seq (Seq (Eval []) (If (Seq (Eval []) (Return)) (Skip))) (Seq (Seq (Eval []) (If (Seq (Eval []) (Return)) (Skip))) (Seq (Eval []) (Return))));
  (** mpsci/fun/_xlogy.py:28-43 *)
  ("mpsci.fun._xlogy.xlog1py", Seq (Seq (Eval []) (If (Seq (Eval []) (Return)) (Skip))) (Seq (Seq (Eval []) (If (Seq (Eval []) (Return)) (Skip))) (Seq (Eval []) (Return))));
  (** mpsci/fun/_xlogy.py:1-49 *)
  ("mpsci.fun._xlogy.<module>", Seq (Eval []) (Seq (Eval []) (Eval [])));
  (** mpsci/stats/__init__.py:1-19 *)
  ("mpsci.stats.<module>", Skip);
  (** mpsci/stats/_anova.py:13-70 *)
  ("mpsci.stats._anova.anova_oneway", With (ExtraDps (Num 5)) (Seq (Eval []) (Seq (Eval []) (Seq (Eval []) (Seq (Eval []) (Seq (Seq (Eval []) (Loop (Seq (Eval []) (Eval [])))) (Seq (Eval []) (Seq (Eval []) (Seq (Eval ["mpsci.stats._basic.mean"]) (Seq (Eval []) (Seq (Eval []) (Seq (Eval []) (Seq (Eval []) (Seq (Eval ["mpsci.distributions.f.sf"]) (Seq (Eval []) (Return))))))))))))))))
].
Definition table19 : program := [
  (** mpsci/stats/_anova.py:1-71 *)
  ("mpsci.stats._anova.<module>", Skip);
  (** mpsci/stats/_basic.py:38-56 *)
  ("mpsci.stats._basic.mean", Seq (Eval []) (Seq (Seq (Eval []) (If (Seq (Eval []) (If (Seq (Eval []) (Raise)) (Skip))) (Skip))) (With (ExtraPrec (Num 16)) (Seq (Seq (Eval []) (If (Seq (Eval []) (Return)) (Skip))) (Seq (Seq (Eval []) (If (Seq (Eval []) (Raise)) (Skip))) (Seq (Eval []) (Return)))))));
  (** mpsci/stats/_basic.py:59-68 *)
  ("mpsci.stats._basic.var", Seq (Eval []) (Seq (With (ExtraPrec (Num 16)) (Seq (Eval []) (Seq (Eval []) (Eval [])))) (Seq (Eval []) (Return))));
  (** mpsci/stats/_basic.py:71-76 *)
  ("mpsci.stats._basic.std", With (ExtraPrec (Num 16)) (Seq (Eval ["mpsci.stats._basic.var"]) (Return)));
  (** mpsci/stats/_basic.py:79-107 *)
  ("mpsci.stats._basic.variation", With (ExtraPrec (Num 16)) (Seq (Eval ["mpsci.stats._basic.std"]) (Seq (Eval ["mpsci.stats._basic.mean"]) (Seq (Eval []) (Return)))));
  (** mpsci/stats/_basic.py:110-132 *)
  ("mpsci.stats._basic.gmean", Seq (Seq (Eval []) (If (Seq (Eval []) (Raise)) (Skip))) (With (ExtraPrec (Num 16)) (Seq (Seq (Eval []) (If (Seq (Seq (Eval []) (If (Seq (Eval []) (Return)) (Skip))) (Seq (Eval ["mpsci.stats._basic.mean"]) (Return))) (Skip))) (Seq (Eval []) (Seq (Seq (Eval []) (If (Seq (Eval []) (Raise)) (Skip))) (Seq (Eval ["mpsci.fun._xlogy.xlogy"]) (Seq (Eval []) (Return))))))));
  (** mpsci/stats/_basic.py:135-202 *)
  ("mpsci.stats._basic.hmean", Seq (Eval []) (Seq (Eval []) (Seq (Eval []) (Seq (Seq (Eval []) (Loop (Seq (Eval []) (If (Eval []) (Seq (Eval []) (If (Eval []) (Eval []))))))) (Seq (Seq (Eval []) (If (Seq (Eval []) (Return)) (Skip))) (Seq (Eval []) (With (ExtraPrec (Num 16)) (Seq (Eval ["mpsci.stats._basic.mean"]) (Seq (Seq (Eval []) (If (Seq (Seq (Eval []) (If (Seq (Eval []) (Return)) (Skip))) (Seq (Seq (Eval []) (If (Seq (Eval []) (Return)) (Skip))) (Seq (Eval []) (Return)))) (Skip))) (Seq (Eval []) (Return)))))))))));
  (** mpsci/stats/_basic.py:205-224 *)
  ("mpsci.stats._basic.pmean", Seq (Seq (Eval []) (If (Seq (Eval ["mpsci.stats._basic.gmean"]) (Return)) (Skip))) (Seq (Seq (Eval []) (If (Seq (Eval ["mpsci.stats._basic.mean"]) (Return)) (Skip))) (Seq (Seq (Eval []) (If (Seq (Eval ["mpsci.stats._basic.hmean"]) (Return)) (Skip))) (Seq (Seq (Eval []) (If (With (ExtraPrec (Num 16)) (Seq (Seq (Eval []) (If (Seq (Eval []) (Return)) (Skip))) (Seq (Eval []) (Return)))) (Skip))) (With (ExtraPrec (Num 16)) (Seq (Eval []) (Seq (Eval ["mpsci.stats._basic.mean"]) (Return))))))));
  (** mpsci/stats/_basic.py:227-291 *)
  ("mpsci.stats._basic.lehmer_mean", Seq (Seq (Eval []) (If (Seq (Eval []) (Raise)) (Skip))) (Seq (Seq (Eval []) (If (Seq (Eval ["mpsci.stats._basic.hmean"]) (Return)) (Skip))) (Seq (Seq (Eval []) (If (Seq (Eval ["mpsci.stats._basic.gmean"]) (Return)) (Skip))) (Seq (Seq (Eval []) (If (Seq (Eval ["mpsci.stats._basic.mean"]) (Return)) (Skip))) (Seq (Eval []) (Seq (Seq (Eval []) (If (Seq (Eval []) (Seq (Seq (Eval []) (If (Seq (Eval []) (Return)) (Skip))) (Seq (Eval []) (Return)))) (Skip))) (Seq (Eval ["mpsci.stats._basic.mean"]) (Return))))))));
  (** mpsci/stats/_basic.py:294-314 *)
  ("mpsci.stats._basic.unique_counts", Seq (Eval []) (Seq (Eval []) (Return)));
  (** mpsci/stats/_basic.py:1-315 *)
  ("mpsci.stats._basic.<module>", Eval []);
  (** mpsci/stats/_boxcox.py:10-28 *)
  ("mpsci.stats._boxcox.boxcox", Seq (Eval []) (Seq (Eval []) (Seq (Seq (Eval []) (If (Seq (Eval []) (Return)) (Skip))) (Seq (Eval []) (Return)))));
  (** mpsci/stats/_boxcox.py:45-66 *)
  ("mpsci.stats._boxcox.boxcox1p", Seq (Eval []) (Seq (Eval []) (Seq (Seq (Eval []) (If (Seq (Eval []) (Return)) (Skip))) (Seq (Eval ["mpsci.fun._powm1.pow1pm1"]) (Return)))));
  (** mpsci/stats/_boxcox.py:83-93 *)
  ("mpsci.stats._boxcox.inv_boxcox", Seq (Eval []) (Seq (Eval []) (Seq (Seq (Eval []) (If (Seq (Eval []) (Return)) (Skip))) (Seq (Eval ["mpsci.fun._powm1.inv_powm1"]) (Return)))));
  (** mpsci/stats/_boxcox.py:96-106 *)
  ("mpsci.stats._boxcox.inv_boxcox1p", Seq (Eval []) (Seq (Eval []) (Seq (Seq (Eval []) (If (Seq (Eval []) (Return)) (Skip))) (Seq (Eval ["mpsci.fun._powm1.inv_pow1pm1"]) (Return)))));
  (** mpsci/stats/_boxcox.py:1-107 *)
  ("mpsci.stats._boxcox.<module>", Seq (Eval []) (Seq (Eval []) (Seq (Eval []) (Seq (Eval []) (Eval [])))));
  (** mpsci/stats/_boxcox_mle.py:10-31 *)
  ("mpsci.stats._boxcox_mle.boxcox_llf", With (ExtraDps (Num 5)) (Seq (Eval []) (Seq (Eval []) (Seq (Eval []) (Seq (Eval []) (Seq (Eval []) (Seq (Seq (Eval []) (If (Eval ["mpsci.stats._basic.var"]) (Eval ["mpsci.stats._basic.var"]))) (Seq (Eval []) (Return)))))))));
  (** mpsci/stats/_boxcox_mle.py:39-39 *)
  ("mpsci.stats._boxcox_mle._boxcox_llf_deriv.<lambda>@39", Eval ["mpsci.stats._boxcox_mle.boxcox_llf"]);
  (** mpsci/stats/_boxcox_mle.py:34-39 *)
  ("mpsci.stats._boxcox_mle._boxcox_llf_deriv", With (ExtraDps (Num 10)) (Seq (Eval ["?"; "mpsci.stats._boxcox_mle._boxcox_llf_deriv.<lambda>@39"]) (Return)));
  (** mpsci/stats/_boxcox_mle.py:69-69 *)
  ("mpsci.stats._boxcox_mle.boxcox_mle.<lambda>@69", Eval ["mpsci.stats._boxcox_mle._boxcox_llf_deriv"]);
  (** mpsci/stats/_boxcox_mle.py:42-69 *)
  ("mpsci.stats._boxcox_mle.boxcox_mle", Seq (Eval ["?"; "mpsci.stats._boxcox_mle.boxcox_mle.<lambda>@69"]) (Return));
  (** mpsci/stats/_boxcox_mle.py:1-70 *)
  ("mpsci.stats._boxcox_mle.<module>", Skip);
  (** mpsci/stats/_fisher_exact.py:8-21 *)
  ("mpsci.stats._fisher_exact._comb", Seq (Seq (Eval []) (If (Seq (Eval []) (Seq (Eval []) (Seq (Seq (Eval []) (Loop (Seq (Eval []) (Seq (Eval []) (Eval []))))) (Seq (Eval []) (Return))))) (Skip))) (Seq (Eval []) (Return)));
  (** mpsci/stats/_fisher_exact.py:24-29 *)
  ("mpsci.stats._fisher_exact._num_combs", Seq (Eval []) (Seq (Eval []) (Seq (Eval []) (Seq (Eval ["mpsci.stats._fisher_exact._comb"]) (Seq (Eval []) (Return))))));
  (** mpsci/stats/_fisher_exact.py:32-135 *)
  ("mpsci.stats._fisher_exact.fisher_exact", Seq (Eval []) (Seq (Eval []) (Seq (Seq (Eval []) (If (Eval []) (Seq (Eval []) (If (Eval []) (Eval []))))) (Seq (Eval []) (Seq (Eval []) (Seq (Eval []) (Seq (Eval []) (Seq (Eval ["mpsci.stats._fisher_exact._comb"]) (Seq (Eval []) (Seq (Eval []) (Seq (Seq (Eval []) (If (Seq (Eval ["mpsci.stats._fisher_exact._comb"]) (Seq (Eval []) (Seq (Seq (Eval []) (Loop (Seq (Eval ["mpsci.stats._fisher_exact._num_combs"]) (Seq (Seq (Eval []) (If (Break) (Skip))) (Eval []))))) (Seq (Seq (Eval []) (Loop (Seq (Eval ["mpsci.stats._fisher_exact._num_combs"]) (Seq (Seq (Eval []) (If (Break) (Skip))) (Eval []))))) (Seq (Eval []) (Seq (Eval []) (Return))))))) (Skip))) (Seq (Seq (Eval []) (If (Eval []) (Seq (Eval []) (If (Eval []) (Seq (Eval []) (Raise)))))) (Seq (Eval []) (Seq (Seq (Eval []) (Loop (Eval ["mpsci.stats._fisher_exact._num_combs"]))) (Seq (Eval []) (Seq (Eval []) (Return)))))))))))))))));
  (** mpsci/stats/_fisher_exact.py:1-136 *)
  ("mpsci.stats._fisher_exact.<module>", Eval []);
  (** mpsci/stats/_goftests.py:8-27 *)
  ("mpsci.stats._goftests.chisquare", Seq (Seq (Eval []) (If (Eval []) (Skip))) (Seq (Eval []) (Seq (Eval []) (Seq (Seq (Eval []) (If (Seq (Eval []) (Raise)) (Skip))) (Seq (Eval []) (Seq (Eval []) (Seq (Eval []) (Seq (Eval []) (Return)))))))));
  (** mpsci/stats/_goftests.py:30-57 *)
  ("mpsci.stats._goftests.gtest", Seq (Seq (Eval []) (If (Eval []) (Skip))) (Seq (Eval []) (Seq (Eval []) (Seq (Seq (Eval []) (If (Seq (Eval []) (Raise)) (Skip))) (Seq (Eval ["mpsci.fun._xlogy.xlogy"]) (Seq (Eval []) (Seq (Eval []) (Seq (Eval []) (Return)))))))));
  (** mpsci/stats/_goftests.py:1-58 *)
  ("mpsci.stats._goftests.<module>", Eval []);
  (** mpsci/stats/_odds_ratio.py:9-11 *)
  ("mpsci.stats._odds_ratio._unpack_table", Seq (Eval []) (Seq (Eval []) (Return)));
  (** mpsci/stats/_odds_ratio.py:14-20 *)
  ("mpsci.stats._odds_ratio._unpack_table_to_mpf", Seq (Eval ["mpsci.stats._odds_ratio._unpack_table"]) (Seq (Eval []) (Seq (Eval []) (Seq (Eval []) (Seq (Eval []) (Seq (Eval []) (Return)))))));
  (** mpsci/stats/_odds_ratio.py:23-26 *)
  ("mpsci.stats._odds_ratio._row_or_column_zero", Seq (Eval ["mpsci.stats._odds_ratio._unpack_table"]) (Seq (Eval []) (Return)));
  (** mpsci/stats/_odds_ratio.py:29-44 *)
  ("mpsci.stats._odds_ratio._sample_odds_ratio", With (ExtraDps (Num 5)) (Seq (Eval ["mpsci.stats._odds_ratio._unpack_table_to_mpf"]) (Seq (Seq (Eval []) (If (Eval []) (Seq (Eval []) (If (Eval []) (Eval []))))) (Seq (Eval []) (Return)))));
  (** mpsci/stats/_odds_ratio.py:47-79 *)
  ("mpsci.stats._odds_ratio._solve", With (ExtraDps (Num 5)) (Seq (Eval []) (Seq (Eval ["?"]) (Seq (Seq (Eval []) (If (Seq (Eval []) (Return)) (Skip))) (Seq (Eval []) (Seq (Seq (Eval []) (If (Seq (Eval []) (Seq (Seq (Eval ["?"]) (Loop (Seq (Eval []) (Eval ["?"])))) (Seq (Eval []) (Eval [])))) (Seq (Eval []) (Seq (Seq (Eval ["?"]) (Loop (Seq (Eval []) (Eval ["?"])))) (Seq (Eval []) (Eval [])))))) (Seq (Eval ["?"]) (Seq (Eval []) (Return)))))))));
  (** mpsci/stats/_odds_ratio.py:88-88 *)
  ("mpsci.stats._odds_ratio._nc_hypergeom_mean_inverse.<lambda>@88", Eval ["mpsci.distributions.fishers_noncentral_hypergeometric.mean"]);
  (** mpsci/stats/_odds_ratio.py:82-89 *)
  ("mpsci.stats._odds_ratio._nc_hypergeom_mean_inverse", Seq (Eval ["mpsci.stats._odds_ratio._solve"; "mpsci.stats._odds_ratio._nc_hypergeom_mean_inverse.<lambda>@88"]) (Seq (Eval []) (Return)));
  (** mpsci/stats/_odds_ratio.py:92-98 *)
  ("mpsci.stats._odds_ratio._hypergeom_params_from_table", Seq (Eval ["mpsci.stats._odds_ratio._unpack_table"]) (Seq (Eval []) (Seq (Eval []) (Seq (Eval []) (Seq (Eval []) (Seq (Eval []) (Return)))))));
  (** mpsci/stats/_odds_ratio.py:112-112 *)
  ("mpsci.stats._odds_ratio._ci_upper.<lambda>@112", Eval ["mpsci.distributions.fishers_noncentral_hypergeometric.cdf"]);
  (** mpsci/stats/_odds_ratio.py:101-113 *)
  ("mpsci.stats._odds_ratio._ci_upper", Seq (Seq (Eval ["mpsci.stats._odds_ratio._sample_odds_ratio"]) (If (Seq (Eval []) (Return)) (Skip))) (Seq (Eval ["mpsci.stats._odds_ratio._hypergeom_params_from_table"]) (Seq (Eval ["mpsci.stats._odds_ratio._solve"; "mpsci.stats._odds_ratio._ci_upper.<lambda>@112"]) (Seq (Eval []) (Return)))));
  (** mpsci/stats/_odds_ratio.py:125-125 *)
  ("mpsci.stats._odds_ratio._ci_lower.<lambda>@125", Eval ["mpsci.distributions.fishers_noncentral_hypergeometric.sf"]);
  (** mpsci/stats/_odds_ratio.py:116-126 *)
  ("mpsci.stats._odds_ratio._ci_lower", Seq (Seq (Eval ["mpsci.stats._odds_ratio._sample_odds_ratio"]) (If (Seq (Eval []) (Return)) (Skip))) (Seq (Eval ["mpsci.stats._odds_ratio._hypergeom_params_from_table"]) (Seq (Eval ["mpsci.stats._odds_ratio._solve"; "mpsci.stats._odds_ratio._ci_lower.<lambda>@125"]) (Seq (Eval []) (Return)))));
  (** mpsci/stats/_odds_ratio.py:129-147 *)
  ("mpsci.stats._odds_ratio._conditional_oddsratio", Seq (Eval ["mpsci.stats._odds_ratio._hypergeom_params_from_table"]) (Seq (Eval ["mpsci.distributions.hypergeometric.support_pmf"]) (Seq (Eval []) (Seq (Seq (Eval []) (If (Seq (Eval []) (Return)) (Skip))) (Seq (Seq (Eval []) (If (Seq (Eval []) (Return)) (Skip))) (Seq (Eval ["mpsci.stats._odds_ratio._nc_hypergeom_mean_inverse"]) (Seq (Eval []) (Return))))))));
  (** mpsci/stats/_odds_ratio.py:150-188 *)
  ("mpsci.stats._odds_ratio._conditional_oddsratio_ci", With (ExtraDps (Num 5)) (Seq (Eval []) (Seq (Seq (Eval []) (If (Seq (Eval []) (Seq (Eval ["mpsci.stats._odds_ratio._ci_lower"]) (Eval ["mpsci.stats._odds_ratio._ci_upper"]))) (Seq (Eval []) (If (Seq (Eval []) (Eval ["mpsci.stats._odds_ratio._ci_upper"])) (Seq (Eval ["mpsci.stats._odds_ratio._ci_lower"]) (Eval [])))))) (Seq (Eval []) (Return)))));
  (** mpsci/stats/_odds_ratio.py:191-213 *)
  ("mpsci.stats._odds_ratio._sample_odds_ratio_ci", Seq (Eval []) (Seq (Eval ["mpsci.stats._odds_ratio._sample_odds_ratio"]) (Seq (Eval []) (Seq (Eval ["mpsci.stats._odds_ratio._unpack_table_to_mpf"]) (Seq (Eval []) (Seq (Seq (Eval []) (If (Seq (Eval ["mpsci.distributions.normal.invcdf"]) (Seq (Eval []) (Eval []))) (Seq (Eval []) (If (Seq (Eval ["mpsci.distributions.normal.invcdf"]) (Seq (Eval []) (Eval []))) (Seq (Eval []) (Seq (Eval ["mpsci.distributions.normal.invcdf"]) (Seq (Eval []) (Eval [])))))))) (Seq (Eval []) (Return))))))));
  (** mpsci/stats/_odds_ratio.py:253-306 *)
  ("mpsci.stats._odds_ratio.OddsRatioResult.odds_ratio_ci", Seq (Seq (Eval []) (If (Eval ["mpsci.stats._odds_ratio.OddsRatioResult._conditional_odds_ratio_ci"]) (Eval ["mpsci.stats._odds_ratio.OddsRatioResult._sample_odds_ratio_ci"]))) (Seq (Eval []) (Return)));
  (** mpsci/stats/_odds_ratio.py:308-323 *)
  ("mpsci.stats._odds_ratio.OddsRatioResult._conditional_odds_ratio_ci", Seq (Seq (Eval []) (If (Seq (Eval []) (Raise)) (Skip))) (Seq (Seq (Eval ["mpsci.stats._odds_ratio._row_or_column_zero"]) (If (Eval []) (Eval ["mpsci.stats._odds_ratio._conditional_oddsratio_ci"]))) (Seq (Eval []) (Return))));
  (** mpsci/stats/_odds_ratio.py:325-340 *)
  ("mpsci.stats._odds_ratio.OddsRatioResult._sample_odds_ratio_ci", Seq (Seq (Eval []) (If (Seq (Eval []) (Raise)) (Skip))) (Seq (Seq (Eval ["mpsci.stats._odds_ratio._row_or_column_zero"]) (If (Eval []) (Eval ["mpsci.stats._odds_ratio._sample_odds_ratio_ci"]))) (Seq (Eval []) (Return))));
  (** mpsci/stats/_odds_ratio.py:343-458 *)
  ("mpsci.stats._odds_ratio.odds_ratio", Seq (Seq (Eval []) (If (Seq (Eval []) (Raise)) (Skip))) (Seq (Seq (Eval []) (If (Seq (Eval []) (Raise)) (Skip))) (Seq (Seq (Eval []) (If (Seq (Eval []) (Raise)) (Skip))) (Seq (Eval ["mpsci.stats._odds_ratio._unpack_table_to_mpf"]) (Seq (Seq (Eval []) (If (Seq (Eval []) (Raise)) (Skip))) (Seq (Seq (Eval ["mpsci.stats._odds_ratio._row_or_column_zero"]) (If (Seq (Eval []) (Seq (Eval []) (Return))) (Skip))) (Seq (Seq (Eval []) (If (Seq (Eval ["mpsci.stats._odds_ratio._sample_odds_ratio"]) (Seq (Eval []) (Seq (Eval []) (Seq (Eval []) (If (Eval []) (Seq (Eval []) (If (Eval []) (Eval [])))))))) (Seq (Eval ["mpsci.stats._odds_ratio._conditional_oddsratio"]) (Eval ["mpsci.stats._fisher_exact.fisher_exact"])))) (Seq (Eval []) (Seq (Eval []) (Return))))))))));
  (** mpsci/stats/_odds_ratio.py:1-459 *)
  ("mpsci.stats._odds_ratio.<module>", Skip);
  (** mpsci/stats/_pearsonr.py:8-79 *)
  ("mpsci.stats._pearsonr.pearsonr", Seq (Seq (Eval []) (If (Seq (Eval []) (Raise)) (Skip))) (Seq (Seq (Eval []) (If (Seq (Eval []) (Raise)) (Skip))) (Seq (Seq (Eval []) (If (Seq (Eval []) (Return)) (Skip))) (Seq (Seq (Eval []) (If (Seq (Eval []) (Return)) (Skip))) (Seq (Eval []) (Seq (Eval []) (Seq (Eval []) (Seq (Eval []) (Seq (Eval []) (Seq (Eval []) (Seq (Eval []) (Seq (Eval []) (Seq (Eval []) (Seq (Eval []) (Seq (Eval []) (Seq (Seq (Eval []) (If (Eval []) (Seq (Eval []) (If (Eval []) (Eval []))))) (Seq (Eval []) (Return))))))))))))))))));
  (** mpsci/stats/_pearsonr.py:82-143 *)
  ("mpsci.stats._pearsonr.pearsonr_ci", With (ExtraDps (Num 5)) (Seq (Seq (Eval []) (If (Seq (Eval []) (Raise)) (Skip))) (Seq (Eval []) (Seq (Eval []) (Seq (Eval []) (Seq (Eval []) (Seq (Seq (Eval []) (If (Seq (Eval ["mpsci.distributions.normal.invcdf"]) (Seq (Eval []) (Seq (Eval []) (Seq (Eval []) (Eval []))))) (Seq (Eval []) (If (Seq (Eval ["mpsci.distributions.normal.invcdf"]) (Seq (Eval []) (Seq (Eval []) (Eval [])))) (Seq (Eval ["mpsci.distributions.normal.invcdf"]) (Seq (Eval []) (Seq (Eval []) (Eval [])))))))) (Seq (Eval []) (Return)))))))));
  (** mpsci/stats/_pearsonr.py:1-144 *)
  ("mpsci.stats._pearsonr.<module>", Eval []);
  (** mpsci/stats/_yeojohnson.py:9-28 *)
  ("mpsci.stats._yeojohnson.yeojohnson", With (ExtraDps (Num 5)) (Seq (Eval []) (Seq (Eval []) (Seq (Seq (Eval []) (If (Seq (Seq (Eval []) (If (Seq (Eval []) (Return)) (Skip))) (Seq (Eval ["mpsci.fun._powm1.pow1pm1"]) (Return))) (Skip))) (Seq (Seq (Eval []) (If (Seq (Eval []) (Return)) (Skip))) (Seq (Eval []) (Seq (Eval ["mpsci.fun._powm1.pow1pm1"]) (Return))))))));
  (** mpsci/stats/_yeojohnson.py:31-50 *)
  ("mpsci.stats._yeojohnson.inv_yeojohnson", With (ExtraDps (Num 5)) (Seq (Eval []) (Seq (Eval []) (Seq (Seq (Eval []) (If (Seq (Seq (Eval []) (If (Seq (Eval []) (Return)) (Skip))) (Seq (Eval ["mpsci.fun._powm1.inv_pow1pm1"]) (Return))) (Skip))) (Seq (Seq (Eval []) (If (Seq (Eval []) (Return)) (Skip))) (Seq (Eval []) (Seq (Eval ["mpsci.fun._powm1.inv_pow1pm1"]) (Return))))))));
  (** mpsci/stats/_yeojohnson.py:1-51 *)
  ("mpsci.stats._yeojohnson.<module>", Eval []);
  (** mpsci/stats/_yeojohnson_mle.py:8-45 *)
  ("mpsci.stats._yeojohnson_mle.yeojohnson_llf", With (ExtraDps (Num 5)) (Seq (Eval []) (Seq (Eval []) (Seq (Eval []) (Seq (Seq (Eval []) (If (Seq (Eval []) (Raise)) (Skip))) (Seq (Eval ["mpsci.stats._yeojohnson.yeojohnson"]) (Seq (Eval ["mpsci.stats._basic.var"]) (Seq (Eval []) (Seq (Eval []) (Seq (Eval []) (Return)))))))))));
  (** mpsci/stats/_yeojohnson_mle.py:76-76 *)
  ("mpsci.stats._yeojohnson_mle.yeojohnson_mle.<lambda>@76.<lambda>@76", Eval ["mpsci.stats._yeojohnson_mle.yeojohnson_llf"]);
  (** mpsci/stats/_yeojohnson_mle.py:76-76 *)
  ("mpsci.stats._yeojohnson_mle.yeojohnson_mle.<lambda>@76", Eval ["?"; "mpsci.stats._yeojohnson_mle.yeojohnson_mle.<lambda>@76.<lambda>@76"]);
  (** mpsci/stats/_yeojohnson_mle.py:63-78 *)
  ("mpsci.stats._yeojohnson_mle.yeojohnson_mle", Seq (Eval ["?"; "mpsci.stats._yeojohnson_mle.yeojohnson_mle.<lambda>@76"]) (Seq (Eval []) (Return)));
  (** mpsci/stats/_yeojohnson_mle.py:1-79 *)
  ("mpsci.stats._yeojohnson_mle.<module>", Seq (Eval []) (Eval []))
].
Definition package : program := (table0 ++ table1 ++ table2 ++ table3 ++ table4 ++ table5 ++ table6 ++ table7 ++ table8 ++ table9 ++ table10 ++ table11 ++ table12 ++ table13 ++ table14 ++ table15 ++ table16 ++ table17 ++ table18 ++ table19)%list.
