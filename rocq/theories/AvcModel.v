(* Transcription of Rodas-NG/test/AvcF.hpp, "simulation of a stroke", 21 unknowns.  Radau5-NG/test/AvcF.hpp is
   the same text with other flags; its line numbers are smaller by 10 from line 66 on.  Constants and
   intermediate results are definitions with the names of the code (c_: members, v_: locals).  exp,
   log and sinh are parameters; pow(a,2) and pow(a,3) are products; the components of x are read
   with constant indices between 0 and 20.  Members that nothing uses (aaa, CBFmax, ...) are left out. *)
From Verif Require Import Base HessModel.
Open Scope Z_scope.

Section Avc.
Context {K : num}.
Variables fexp flog fsinh : K -> K.
Definition sq (a : K) : K := (a * a)%num.
Definition cube (a : K) : K := (a * a * a)%num.
(* RAT is defined *)
Variable rat : bool.
(* AvcF.hpp:69 *)
Definition c_F : K := (nlit 9648530929 (-8))%num.
(* AvcF.hpp:70 *)
Definition c_R : K := (nlit 8314511935 (-9))%num.
(* AvcF.hpp:70 *)
Definition c_Temp : K := (nlit 31015 (-2))%num.
(* AvcF.hpp:71 *)
Definition c_RT : K := (c_R * c_Temp)%num.
(* AvcF.hpp:71 *)
Definition c_RTF : K := (c_RT / c_F)%num.
(* AvcF.hpp:71 *)
Definition c_FRT : K := (c_F / c_RT)%num.
(* AvcF.hpp:74-78 *)
Definition c_k : K := if rat then (nlit 650 (-1) / nlit 350 (-1))%num else nlit 10 0.
(* AvcF.hpp:78 *)
Definition c_ESPACE : K := (nlit 10 (-1))%num.
(* AvcF.hpp:79 *)
Definition c_va : K := (nlit 9000 0)%num.
(* AvcF.hpp:79 *)
Definition c_vn : K := (nlit 10000 0)%num.
(* AvcF.hpp:79 *)
Definition c_v : K := (nlit 25000 0)%num.
(* AvcF.hpp:80 *)
Definition c_n1 : K := (nlit 8 (-1) * c_v / (c_vn + c_k * c_va))%num.
(* AvcF.hpp:81 *)
Definition c_n2 : K := (c_k * c_n1)%num.
(* AvcF.hpp:93 *)
Definition c_agKDR : K := (nlit 356654 (-1))%num.
(* AvcF.hpp:93 *)
Definition c_ngKDR : K := (nlit 229235 (-2))%num.
(* AvcF.hpp:94 *)
Definition c_ngBK : K := (nlit 336741 (-5))%num.
(* AvcF.hpp:94 *)
Definition c_agBK : K := (nlit 197892 (-5))%num.
(* AvcF.hpp:95 *)
Definition c_agKir : K := (nlit 590892 (-5))%num.
(* AvcF.hpp:95 *)
Definition c_ngCaHVA : K := (nlit 183418 (-4))%num.
(* AvcF.hpp:96 *)
Definition c_agCaHVA : K := (nlit 16508 (-2))%num.
(* AvcF.hpp:96 *)
Definition c_npHVA : K := (nlit 15 (-6))%num.
(* AvcF.hpp:97 *)
Definition c_apHVA : K := (nlit 15 (-6))%num.
(* AvcF.hpp:98 *)
Definition c_ngNaP : K := (nlit 2053 (-3))%num.
(* AvcF.hpp:98 *)
Definition c_agNaP : K := (nlit 150655 (-7))%num.
(* AvcF.hpp:99 *)
Definition c_nPK : K := (nlit 211976 (-7))%num.
(* AvcF.hpp:99 *)
Definition c_aPK : K := (nlit 970553 (-9))%num.
(* AvcF.hpp:100 *)
Definition c_nrNaK : K := (nlit 136319 (-4))%num.
(* AvcF.hpp:100 *)
Definition c_arNaK : K := (nlit 596188 (-5))%num.
(* AvcF.hpp:101 *)
Definition c_ngCapompe : K := (nlit 5 0)%num.
(* AvcF.hpp:101 *)
Definition c_agCapompe : K := (nlit 5 0)%num.
(* AvcF.hpp:101 *)
Definition c_ngClpompe : K := (nlit 2 0)%num.
(* AvcF.hpp:101 *)
Definition c_agClpompe : K := (nlit 2 0)%num.
(* AvcF.hpp:102 *)
Definition c_nrNaCa : K := (nlit 183901 (-5))%num.
(* AvcF.hpp:102 *)
Definition c_arNaCa : K := (nlit 178407 (-5))%num.
(* AvcF.hpp:103 *)
Definition c_ngtransp : K := (nlit 380749 (-7))%num.
(* AvcF.hpp:103 *)
Definition c_agtransp : K := (nlit 488883 (-7))%num.
(* AvcF.hpp:104 *)
Definition c_arNaKCl : K := (nlit 157281 (-7))%num.
(* AvcF.hpp:105 *)
Definition c_agglu : K := (nlit 187386 (-7))%num.
(* AvcF.hpp:105 *)
Definition c_ngglu : K := (nlit 128369 (-7))%num.
(* AvcF.hpp:106 *)
Definition c_ngClglob : K := (nlit 231534 (-6))%num.
(* AvcF.hpp:106 *)
Definition c_agClglob : K := (nlit 719236 (-6))%num.
(* AvcF.hpp:107 *)
Definition c_nPropVol0 : K := (c_n1 * c_vn / c_v * c_ESPACE)%num.
(* AvcF.hpp:107 *)
Definition c_aPropVol0 : K := (c_n2 * c_va / c_v * c_ESPACE)%num.
(* AvcF.hpp:108 *)
Definition c_ngCl : K := (nlit 623888 (-5))%num.
(* AvcF.hpp:108 *)
Definition c_agCl : K := (nlit 618428 (-5))%num.
(* AvcF.hpp:109 *)
Definition c_agstre : K := (nlit 5 (-2))%num.
(* AvcF.hpp:109 *)
Definition c_ngstre : K := (nlit 5 (-2))%num.
(* AvcF.hpp:110 *)
Definition c_ra : K := (nlit 6203504908 (-10) * npow (c_va) (nlit 1 0 / nlit 3 0))%num.
(* AvcF.hpp:111 *)
Definition c_rn : K := (nlit 6203504908 (-10) * npow (c_vn) (nlit 1 0 / nlit 3 0))%num.
(* AvcF.hpp:112 *)
Definition c_nsurf : K := (nlit 4 0 * nlit 3141592654 (-9) * c_rn * c_rn)%num.
(* AvcF.hpp:112 *)
Definition c_asurf : K := (nlit 4 0 * nlit 3141592654 (-9) * c_ra * c_ra)%num.
(* AvcF.hpp:113 *)
Definition c_ncap : K := (c_nsurf * nlit 1 (-2))%num.
(* AvcF.hpp:113 *)
Definition c_acap : K := (c_asurf * nlit 1 (-2))%num.
(* AvcF.hpp:114 *)
Definition c_nConIntraCa0 : K := (nlit 6 (-4) * c_ESPACE)%num.
(* AvcF.hpp:114 *)
Definition c_aConIntraCa0 : K := (nlit 6 (-4) * c_ESPACE)%num.
(* AvcF.hpp:115 *)
Definition c_ConExtraCa0 : K := (nlit 20 (-1) * c_ESPACE)%num.
(* AvcF.hpp:115 *)
Definition c_nConIntraNa0 : K := (nlit 177391 (-4) * c_ESPACE)%num.
(* AvcF.hpp:116 *)
Definition c_aConIntraNa0 : K := (nlit 177391 (-4) * c_ESPACE)%num.
(* AvcF.hpp:116 *)
Definition c_ConExtraNa0 : K := (nlit 140 0 * c_ESPACE)%num.
(* AvcF.hpp:117 *)
Definition c_nConIntraK0 : K := (nlit 130659 (-3) * c_ESPACE)%num.
(* AvcF.hpp:117 *)
Definition c_aConIntraK0 : K := (nlit 130658 (-3) * c_ESPACE)%num.
(* AvcF.hpp:118 *)
Definition c_ConExtraK0 : K := (nlit 54 (-1) * c_ESPACE)%num.
(* AvcF.hpp:119 *)
Definition c_nConIntraCl0 : K := (nlit 14 0 * c_ESPACE)%num.
(* AvcF.hpp:119 *)
Definition c_aConIntraCl0 : K := (nlit 7 0 * c_ESPACE)%num.
(* AvcF.hpp:120 *)
Definition c_ConExtraCl0 : K := (nlit 149397 (-3) * c_ESPACE)%num.
(* AvcF.hpp:120 *)
Definition c_nConIntraglu0 : K := (nlit 3 0 * c_ESPACE)%num.
(* AvcF.hpp:121 *)
Definition c_aConIntraglu0 : K := (nlit 3 0 * c_ESPACE)%num.
(* AvcF.hpp:121 *)
Definition c_ConExtraglu0 : K := (nlit 1 (-3) * c_ESPACE)%num.
(* AvcF.hpp:126 *)
Definition c_nnP0 : K := (c_v * c_nPropVol0 * (c_nConIntraNa0 + c_nConIntraK0 + nlit 2 0 * c_nConIntraCa0 - c_nConIntraCl0 - c_nConIntraglu0))%num.
(* AvcF.hpp:128 *)
Definition c_anP0 : K := (c_v * c_aPropVol0 * (c_aConIntraNa0 + c_aConIntraK0 + nlit 2 0 * c_aConIntraCa0 - c_aConIntraCl0 - c_aConIntraglu0))%num.
(* AvcF.hpp:130 *)
Definition c_alpha_n : K := (nlit 200 (-1))%num.
(* AvcF.hpp:130 *)
Definition c_alpha_a : K := (c_alpha_n)%num.
(* AvcF.hpp:132 *)
Definition c_T0v : K := (nlit 2500 (-1))%num.
(* AvcF.hpp:132 *)
Definition c_T0r : K := (nlit 5000 (-1))%num.
(* AvcF.hpp:132 *)
Definition c_Tfv : K := (nlit 200 (-1))%num.
(* AvcF.hpp:132 *)
Definition c_Tfr : K := (nlit 200 (-1))%num.
(* AvcF.hpp:132 *)
Definition c_v0 : K := (nlit 9 (-1))%num.
(* AvcF.hpp:132 *)
Definition c_alpha : K := (nlit 150 (-1))%num.
(* AvcF.hpp:133 *)
Definition c_alphaP : K := (nlit 60 (-1))%num.
(* AvcF.hpp:133 *)
Definition c_v0P : K := (nlit 5 (-2))%num.

(* AvcF.hpp:26-29 *)
Definition smooth2 (x : K) : K := (nlit 10 (-1) / (nlit 10 (-1) + fexp (nlit 100 0 * x)))%num.
(* AvcF.hpp:30-36: vp and rp *)
Definition recup_v (x : vec K) : K :=
  ((nlit 10 (-1) - smooth2 ((x 10 - c_alpha) / nlit 10 0)) * (nlit 1 0 - x 19) / c_T0v - smooth2 ((x 10 - c_alphaP) / nlit 10 0) * x 19 / c_Tfv)%num.
Definition recup_r (x : vec K) : K :=
  ((nlit 10 (-1) - smooth2 (x 19 - c_v0)) * (nlit 1 0 - x 20) / c_T0r - smooth2 (x 19 - c_v0P) * x 20 / c_Tfr)%num.
(* AvcF.hpp:37-40 *)
Definition f_S (x : K) : K := (nlit 10 (-1) / (nlit 10 (-1) + fexp ((- nlit 20 0) * (x - nlit 7 (-1)))))%num.
(* AvcF.hpp:41-47 *)
Definition fdepol (t r : K) : K :=
  let alim := nlit 25 (-2) in let aa := nlit 1025 (-3) in let beta := (nlit 10 (-1) / nlit 60 0)%num in
  let z := (aa * (alim + (nlit 10 (-1) - alim) * fexp ((- beta) * t)))%num in
  (z * (nlit 1 0 + nlit 6 (-1) * r * f_S (z / aa)))%num.
Section Rhs.
Variable t : K.
Variable x : vec K.
(* AvcF.hpp:199 *)
Definition v_nConIntraK : K := x 0.
(* AvcF.hpp:200 *)
Definition v_nConIntraNa : K := x 1.
(* AvcF.hpp:201 *)
Definition v_nConIntraCa : K := x 2.
(* AvcF.hpp:202 *)
Definition v_nConIntraCl : K := x 3.
(* AvcF.hpp:203 *)
Definition v_nConIntraglu : K := x 4.
(* AvcF.hpp:204 *)
Definition v_aConIntraK : K := x 5.
(* AvcF.hpp:205 *)
Definition v_aConIntraNa : K := x 6.
(* AvcF.hpp:206 *)
Definition v_aConIntraCa : K := x 7.
(* AvcF.hpp:207 *)
Definition v_aConIntraCl : K := x 8.
(* AvcF.hpp:208 *)
Definition v_aConIntraglu : K := x 9.
(* AvcF.hpp:209 *)
Definition v_ConExtraK : K := x 10.
(* AvcF.hpp:210 *)
Definition v_ConExtraNa : K := x 11.
(* AvcF.hpp:211 *)
Definition v_ConExtraCa : K := x 12.
(* AvcF.hpp:212 *)
Definition v_ConExtraCl : K := x 13.
(* AvcF.hpp:213 *)
Definition v_ConExtraglu : K := x 14.
(* AvcF.hpp:214 *)
Definition v_nVm : K := x 15.
(* AvcF.hpp:215 *)
Definition v_aVm : K := x 16.
(* AvcF.hpp:216 *)
Definition v_nPropVol : K := x 17.
(* AvcF.hpp:217 *)
Definition v_aPropVol : K := x 18.
(* AvcF.hpp:219 *)
Definition v_depol : K := (fdepol t (x 20))%num.
(* AvcF.hpp:222 *)
Definition v_nEK : K := (c_RTF * flog (v_ConExtraK / v_nConIntraK))%num.
(* AvcF.hpp:224 *)
Definition v_nENa : K := (c_RTF * flog (v_ConExtraNa / v_nConIntraNa))%num.
(* AvcF.hpp:225 *)
Definition v_nEglu : K := ((- c_RTF) * flog (v_ConExtraglu / v_nConIntraglu))%num.
(* AvcF.hpp:226 *)
Definition v_nECl : K := ((- c_RTF) * flog (v_ConExtraCl / v_nConIntraCl))%num.
(* AvcF.hpp:228 *)
Definition v_aEK : K := (c_RTF * flog (v_ConExtraK / v_aConIntraK))%num.
(* AvcF.hpp:230 *)
Definition v_aENa : K := (c_RTF * flog (v_ConExtraNa / v_aConIntraNa))%num.
(* AvcF.hpp:231 *)
Definition v_aEglu : K := ((- c_RTF) * flog (v_ConExtraglu / v_aConIntraglu))%num.
(* AvcF.hpp:232 *)
Definition v_aECl : K := ((- c_RTF) * flog (v_ConExtraCl / v_aConIntraCl))%num.
(* AvcF.hpp:237 *)
Definition v_nmeqKDR : K := (nlit 47 (-4) * (v_nVm - nlit 8 0) / (nlit 1 0 - fexp ((- (v_nVm - nlit 8 0)) / nlit 12 0)) / (nlit 47 (-4) * (v_nVm - nlit 8 0) / (nlit 1 0 - fexp ((- (v_nVm - nlit 8 0)) / nlit 120 (-1))) + fexp ((- (v_nVm + nlit 127 0)) / nlit 300 (-1))))%num.
(* AvcF.hpp:239 *)
Definition v_nheqKDR : K := (nlit 1 0 / (nlit 1 0 + fexp ((v_nVm + nlit 25 0) / nlit 40 (-1))))%num.
(* AvcF.hpp:240 *)
Definition v_nIKDR : K := (nlit 1 (-3) * c_ngKDR * v_nmeqKDR * v_nmeqKDR * v_nheqKDR * (v_nVm - v_nEK))%num.
(* AvcF.hpp:242 *)
Definition v_ameqKDR : K := (nlit 47 (-4) * (v_aVm - nlit 8 0) / (nlit 1 0 - fexp ((- (v_aVm - nlit 8 0)) / nlit 12 0)) / (nlit 47 (-4) * (v_aVm - nlit 8 0) / (nlit 1 0 - fexp ((- (v_aVm - nlit 8 0)) / nlit 12 0)) + fexp ((- (v_aVm + nlit 127 0)) / nlit 30 0)))%num.
(* AvcF.hpp:244 *)
Definition v_aheqKDR : K := (nlit 1 0 / (nlit 1 0 + fexp ((v_aVm + nlit 25 0) / nlit 4 0)))%num.
(* AvcF.hpp:245 *)
Definition v_aIKDR : K := (nlit 1 (-3) * c_agKDR * v_ameqKDR * v_ameqKDR * v_aheqKDR * (v_aVm - v_aEK))%num.
(* AvcF.hpp:248 *)
Definition v_nmeqBK : K := (nlit 250 0 * v_nConIntraCa * fexp (v_nVm / nlit 24 0) / (nlit 250 0 * v_nConIntraCa * fexp (v_nVm / nlit 24 0) + nlit 1 (-1) * fexp ((- v_nVm) / nlit 24 0)))%num.
(* AvcF.hpp:250 *)
Definition v_nIBK : K := (nlit 1 (-3) * c_ngBK * v_nmeqBK * (v_nVm - v_nEK))%num.
(* AvcF.hpp:252 *)
Definition v_ameqBK : K := (nlit 250 0 * v_aConIntraCa * fexp (v_aVm / nlit 24 0) / (nlit 250 0 * v_aConIntraCa * fexp (v_aVm / nlit 24 0) + nlit 1 (-1) * fexp ((- v_aVm) / nlit 24 0)))%num.
(* AvcF.hpp:254 *)
Definition v_aIBK : K := (nlit 1 (-3) * c_agBK * v_ameqBK * (v_aVm - v_aEK))%num.
(* AvcF.hpp:258 *)
Definition v_ameqKir : K := (nlit 1 0 / (nlit 2 0 + fexp (nlit 162 (-2) * c_FRT * (v_aVm - v_aEK))))%num.
(* AvcF.hpp:259 *)
Definition v_aIKir : K := (nlit 1 (-3) * c_agKir * v_ameqKir * (v_ConExtraK / (v_ConExtraK + nlit 13 0)) * (v_aVm - v_aEK))%num.
(* AvcF.hpp:264 *)
Definition v_nCurlyPhi : K := (c_FRT * v_nVm)%num.
(* AvcF.hpp:265 *)
Definition v_nA1 : K := ((v_nConIntraCa * fexp (nlit 2 0 * v_nCurlyPhi) - v_ConExtraCa) / (fexp (nlit 2 0 * v_nCurlyPhi) - nlit 1 0))%num.
(* AvcF.hpp:268 *)
Definition v_namCaHVA : K := (nlit 85 (-1) / (nlit 1 0 + fexp ((- (v_nVm - nlit 8 0)) / nlit 125 (-1))))%num.
(* AvcF.hpp:269 *)
Definition v_nbmCaHVA : K := (nlit 35 0 / (nlit 1 0 + fexp ((v_nVm + nlit 74 0) / nlit 145 (-1))))%num.
(* AvcF.hpp:270 *)
Definition v_nmeqCaHVA : K := (v_namCaHVA / (v_namCaHVA + v_nbmCaHVA))%num.
(* AvcF.hpp:271 *)
Definition v_nahCaHVA : K := (nlit 15 (-4) / (nlit 1 0 + fexp ((v_nVm + nlit 29 0) / nlit 8 0)))%num.
(* AvcF.hpp:272 *)
Definition v_nbhCaHVA : K := (nlit 55 (-4) / (nlit 1 0 + fexp ((- (v_nVm + nlit 23 0)) / nlit 8 0)))%num.
(* AvcF.hpp:273 *)
Definition v_nheqCaHVA : K := (v_nahCaHVA / (v_nahCaHVA + v_nbhCaHVA))%num.
(* AvcF.hpp:274 *)
Definition v_nICaHVA : K := (nlit 10 0 * c_F * c_npHVA * c_ngCaHVA * nlit 4 0 * v_nCurlyPhi * v_nmeqCaHVA * v_nheqCaHVA * v_nA1)%num.
(* AvcF.hpp:278 *)
Definition v_aCurlyPhi : K := (c_FRT * v_aVm)%num.
(* AvcF.hpp:279 *)
Definition v_aA1 : K := ((v_aConIntraCa * fexp (nlit 2 0 * v_aCurlyPhi) - v_ConExtraCa) / (fexp (nlit 2 0 * v_aCurlyPhi) - nlit 1 0))%num.
(* AvcF.hpp:282 *)
Definition v_aamCaHVA : K := (nlit 85 (-1) / (nlit 1 0 + fexp ((- (v_aVm - nlit 8 0)) / nlit 125 (-1))))%num.
(* AvcF.hpp:283 *)
Definition v_abmCaHVA : K := (nlit 35 0 / (nlit 1 0 + fexp ((v_aVm + nlit 74 0) / nlit 145 (-1))))%num.
(* AvcF.hpp:284 *)
Definition v_ameqCaHVA : K := (v_aamCaHVA / (v_aamCaHVA + v_abmCaHVA))%num.
(* AvcF.hpp:285 *)
Definition v_aahCaHVA : K := (nlit 15 (-4) / (nlit 1 0 + fexp ((v_aVm + nlit 29 0) / nlit 8 0)))%num.
(* AvcF.hpp:286 *)
Definition v_abhCaHVA : K := (nlit 55 (-4) / (nlit 1 0 + fexp ((- (v_aVm + nlit 23 0)) / nlit 8 0)))%num.
(* AvcF.hpp:287 *)
Definition v_aheqCaHVA : K := (v_aahCaHVA / (v_aahCaHVA + v_abhCaHVA))%num.
(* AvcF.hpp:288 *)
Definition v_aICaHVA : K := (nlit 10 0 * c_F * c_apHVA * c_agCaHVA * nlit 4 0 * v_aCurlyPhi * v_ameqCaHVA * v_aheqCaHVA * v_aA1)%num.
(* AvcF.hpp:293 *)
Definition v_namNaP : K := (nlit 200 0 / (nlit 1 0 + fexp ((- (v_nVm - nlit 18 0)) / nlit 16 0)))%num.
(* AvcF.hpp:294 *)
Definition v_nbmNaP : K := (nlit 25 0 / (nlit 1 0 + fexp ((v_nVm + nlit 58 0) / nlit 8 0)))%num.
(* AvcF.hpp:295 *)
Definition v_nmeqNaP : K := (v_namNaP / (v_namNaP + v_nbmNaP))%num.
(* AvcF.hpp:296 *)
Definition v_nINaP : K := (nlit 1 (-3) * c_ngNaP * v_nmeqNaP * (v_nVm - v_nENa))%num.
(* AvcF.hpp:298 *)
Definition v_aamNaP : K := (nlit 200 0 / (nlit 1 0 + fexp ((- (v_aVm - nlit 18 0)) / nlit 16 0)))%num.
(* AvcF.hpp:299 *)
Definition v_abmNaP : K := (nlit 25 0 / (nlit 1 0 + fexp ((v_aVm + nlit 58 0) / nlit 8 0)))%num.
(* AvcF.hpp:300 *)
Definition v_ameqNaP : K := (v_aamNaP / (v_aamNaP + v_abmNaP))%num.
(* AvcF.hpp:301 *)
Definition v_aINaP : K := (nlit 1 (-3) * c_agNaP * v_ameqNaP * (v_aVm - v_aENa))%num.
(* AvcF.hpp:305 *)
Definition v_nConGLU : K := (v_ConExtraglu)%num.
(* AvcF.hpp:307 *)
Definition v_nA2 : K := (nlit 72 0 * v_nConGLU / (nlit 72 0 * v_nConGLU + nlit 66 (-1)))%num.
(* AvcF.hpp:308 *)
Definition v_nB2 : K := (nlit 1 0 / (nlit 1 0 + nlit 28 (-3) * fexp ((- nlit 62 (-3)) * v_nVm)))%num.
(* AvcF.hpp:310 *)
Definition v_nCK : K := ((v_nConIntraK / v_ConExtraK * fexp (v_nCurlyPhi) - nlit 1 0) / (fexp (v_nCurlyPhi) - nlit 1 0))%num.
(* AvcF.hpp:312 *)
Definition v_ngKNMDA : K := (c_nPK * c_F * c_F / c_RT * v_ConExtraK)%num.
(* AvcF.hpp:313 *)
Definition v_nIKNMDA : K := (nlit 1 (-3) * v_ngKNMDA * v_nA2 * v_nB2 * v_nCK * v_nVm)%num.
(* AvcF.hpp:315 *)
Definition v_nCNa : K := ((v_nConIntraNa / v_ConExtraNa * fexp (v_nCurlyPhi) - nlit 1 0) / (fexp (v_nCurlyPhi) - nlit 1 0))%num.
(* AvcF.hpp:317 *)
Definition v_ngNaNMDA : K := (c_nPK * c_F * c_F / c_RT * v_ConExtraNa)%num.
(* AvcF.hpp:318 *)
Definition v_nINaNMDA : K := (nlit 1 (-3) * v_ngNaNMDA * v_nA2 * v_nB2 * v_nCNa * v_nVm)%num.
(* AvcF.hpp:320 *)
Definition v_nCCa : K := ((v_nConIntraCa / v_ConExtraCa * fexp (nlit 2 0 * v_nCurlyPhi) - nlit 1 0) / (fexp (nlit 2 0 * v_nCurlyPhi) - nlit 1 0))%num.
(* AvcF.hpp:322 *)
Definition v_ngCaNMDA : K := (nlit 4 0 * nlit 6 0 * c_nPK * c_F * c_F / c_RT * v_ConExtraCa)%num.
(* AvcF.hpp:323 *)
Definition v_nICaNMDA : K := (nlit 1 (-3) * v_ngCaNMDA * v_nA2 * v_nB2 * v_nCCa * v_nVm)%num.
(* AvcF.hpp:328 *)
Definition v_aConGLU : K := (v_ConExtraglu)%num.
(* AvcF.hpp:330 *)
Definition v_aA2 : K := (nlit 1100 0 * v_aConGLU / (nlit 1100 0 * v_aConGLU + nlit 190 0))%num.
(* AvcF.hpp:331 *)
Definition v_aCK : K := ((v_aConIntraK / v_ConExtraK * fexp (v_aCurlyPhi) - nlit 1 0) / (fexp (v_aCurlyPhi) - nlit 1 0))%num.
(* AvcF.hpp:334 *)
Definition v_agKAMPA : K := (c_aPK * c_F * c_F / c_RT * v_ConExtraK)%num.
(* AvcF.hpp:335 *)
Definition v_aIKAMPA : K := (nlit 1 (-3) * v_agKAMPA * v_aA2 * v_aCK * v_aVm)%num.
(* AvcF.hpp:337 *)
Definition v_aCNa : K := ((v_aConIntraNa / v_ConExtraNa * fexp (v_aCurlyPhi) - nlit 1 0) / (fexp (v_aCurlyPhi) - nlit 1 0))%num.
(* AvcF.hpp:339 *)
Definition v_agNaAMPA : K := (c_aPK * c_F * c_F / c_RT * v_ConExtraNa)%num.
(* AvcF.hpp:340 *)
Definition v_aINaAMPA : K := (nlit 1 (-3) * v_agNaAMPA * v_aA2 * v_aCNa * v_aVm)%num.
(* AvcF.hpp:345 *)
Definition v_nCapitalPhi : K := (c_FRT * (v_nVm + nlit 1765 (-1)))%num.
(* AvcF.hpp:346 *)
Definition v_nA3 : K := (sq (v_ConExtraK / (v_ConExtraK + nlit 37 (-1))))%num.
(* AvcF.hpp:347 *)
Definition v_nB3 : K := (cube (v_nConIntraNa / (v_nConIntraNa + nlit 6 (-1))))%num.
(* AvcF.hpp:348 *)
Definition v_nC3 : K := (nlit 52 (-3) * fsinh (v_nCapitalPhi) / (nlit 26 (-3) * fexp (v_nCapitalPhi) + nlit 225 (-1) * fexp ((- v_nCapitalPhi))))%num.
(* AvcF.hpp:350 *)
Definition v_nIKpompeKNa : K := ((- nlit 1 (-2)) * c_nrNaK * v_depol * v_nA3 * v_nB3 * v_nC3)%num.
(* AvcF.hpp:353 *)
Definition v_nINapompeKNa : K := (nlit 15 (-1) * nlit 1 (-2) * c_nrNaK * v_depol * v_nA3 * v_nB3 * v_nC3)%num.
(* AvcF.hpp:355 *)
Definition v_aCapitalPhi : K := (c_FRT * (v_aVm + nlit 1765 (-1)))%num.
(* AvcF.hpp:356 *)
Definition v_aA3 : K := (sq (v_ConExtraK / (v_ConExtraK + nlit 37 (-1))))%num.
(* AvcF.hpp:357 *)
Definition v_aB3 : K := (cube (v_aConIntraNa / (v_aConIntraNa + nlit 6 (-1))))%num.
(* AvcF.hpp:358 *)
Definition v_aC3 : K := (nlit 52 (-3) * fsinh (v_aCapitalPhi) / (nlit 26 (-3) * fexp (v_aCapitalPhi) + nlit 225 (-1) * fexp ((- v_aCapitalPhi))))%num.
(* AvcF.hpp:360 *)
Definition v_aIKpompeKNa : K := ((- nlit 1 (-2)) * c_arNaK * v_depol * v_aA3 * v_aB3 * v_aC3)%num.
(* AvcF.hpp:362 *)
Definition v_aINapompeKNa : K := (nlit 15 (-1) * nlit 1 (-2) * c_arNaK * v_depol * v_aA3 * v_aB3 * v_aC3)%num.
(* AvcF.hpp:366 *)
Definition v_nICapompe : K := (v_depol * c_ngCapompe * nlit 1 (-2) * v_nConIntraCa / (v_nConIntraCa + nlit 2 (-4)))%num.
(* AvcF.hpp:367 *)
Definition v_aICapompe : K := (v_depol * c_agCapompe * nlit 1 (-2) * v_aConIntraCa / (v_aConIntraCa + nlit 2 (-4)))%num.
(* AvcF.hpp:371 *)
Definition v_nIClpompe : K := ((- nlit 1 (-2)) * v_depol * c_ngClpompe * v_nConIntraCl / (v_nConIntraCl + nlit 25 0))%num.
(* AvcF.hpp:372 *)
Definition v_aIClpompe : K := ((- nlit 1 (-2)) * v_depol * c_agClpompe * v_aConIntraCl / (v_aConIntraCl + nlit 25 0))%num.
(* AvcF.hpp:377 *)
Definition v_aa : K := (c_F / (nlit 2 0 * c_RT))%num.
(* AvcF.hpp:379 *)
Definition v_nA4 : K := (cube (v_nConIntraNa) * v_ConExtraCa * fexp (v_aa * v_nVm) - cube (v_ConExtraNa) * v_nConIntraCa * fexp ((- v_aa) * v_nVm))%num.
(* AvcF.hpp:381 *)
Definition v_nB4 : K := (nlit 1 0 + nlit 1 (-4) * (cube (v_ConExtraNa) * v_nConIntraCa + cube (v_nConIntraNa) * v_ConExtraCa))%num.
(* AvcF.hpp:384 *)
Definition v_nICaantiport : K := ((- nlit 1 (-2)) * (c_nrNaCa / nlit 207360 (-1)) * v_nA4 / v_nB4)%num.
(* AvcF.hpp:386 *)
Definition v_nINaantiport : K := (nlit 15 (-1) * nlit 1 (-2) * (c_nrNaCa / nlit 207360 (-1)) * v_nA4 / v_nB4)%num.
(* AvcF.hpp:388 *)
Definition v_aA4 : K := (cube (v_aConIntraNa) * v_ConExtraCa * fexp (v_aa * v_aVm) - cube (v_ConExtraNa) * v_aConIntraCa * fexp ((- v_aa) * v_aVm))%num.
(* AvcF.hpp:390 *)
Definition v_aB4 : K := (nlit 1 0 + nlit 1 (-4) * (cube (v_ConExtraNa) * v_aConIntraCa + cube (v_aConIntraNa) * v_ConExtraCa))%num.
(* AvcF.hpp:392 *)
Definition v_aICaantiport : K := ((- nlit 1 (-2)) * (c_arNaCa / nlit 207360 (-1)) * v_aA4 / v_aB4)%num.
(* AvcF.hpp:394 *)
Definition v_aINaantiport : K := (nlit 15 (-1) * nlit 1 (-2) * (c_arNaCa / nlit 207360 (-1)) * v_aA4 / v_aB4)%num.
(* AvcF.hpp:400 *)
Definition v_nEtransp : K := (c_RT / c_F * flog (cube (v_ConExtraNa / v_nConIntraNa) * (v_nConIntraK / v_ConExtraK) * (v_ConExtraglu / v_nConIntraglu)))%num.
(* AvcF.hpp:408 *)
Definition v_nINatransporteur : K := (nlit 3 0 * nlit 1 (-3) * c_ngtransp * (v_nVm - v_nEtransp))%num.
(* AvcF.hpp:409 *)
Definition v_nIKtransporteur : K := ((- nlit 1 (-3)) * c_ngtransp * (v_nVm - v_nEtransp))%num.
(* AvcF.hpp:410 *)
Definition v_nIglutransporteur : K := ((- nlit 1 (-3)) * c_ngtransp * (v_nVm - v_nEtransp))%num.
(* AvcF.hpp:413 *)
Definition v_aEtransp : K := (c_RT / c_F * flog (cube (v_ConExtraNa / v_aConIntraNa) * (v_aConIntraK / v_ConExtraK) * (v_ConExtraglu / v_aConIntraglu)))%num.
(* AvcF.hpp:422 *)
Definition v_aINatransporteur : K := (nlit 3 0 * nlit 1 (-3) * c_agtransp * (v_aVm - v_aEtransp))%num.
(* AvcF.hpp:423 *)
Definition v_aIKtransporteur : K := ((- nlit 1 (-3)) * c_agtransp * (v_aVm - v_aEtransp))%num.
(* AvcF.hpp:424 *)
Definition v_aIglutransporteur : K := ((- nlit 1 (-3)) * c_agtransp * (v_aVm - v_aEtransp))%num.
(* AvcF.hpp:431 *)
Definition v_aEinvNaKCl : K := ((- nlit 2 0) * v_aECl + v_aEK + v_aENa)%num.
(* AvcF.hpp:433 *)
Definition v_aINacotransp : K := ((- nlit 1 (-3)) * c_arNaKCl * v_aEinvNaKCl)%num.
(* AvcF.hpp:435 *)
Definition v_aIKcotransp : K := ((- nlit 1 (-3)) * c_arNaKCl * v_aEinvNaKCl)%num.
(* AvcF.hpp:437 *)
Definition v_aIClcotransp : K := (nlit 2 0 * nlit 1 (-3) * c_arNaKCl * v_aEinvNaKCl)%num.
(* AvcF.hpp:444 *)
Definition v_nIgludiff : K := (nlit 1 (-3) * c_ngglu * (v_nVm - v_nEglu))%num.
(* AvcF.hpp:445 *)
Definition v_aIgludiff : K := (nlit 1 (-3) * c_agglu * (v_aVm - v_aEglu))%num.
(* AvcF.hpp:449 *)
Definition v_nEinvKCl : K := (v_nECl - v_nEK)%num.
(* AvcF.hpp:450 *)
Definition v_nIClglob : K := ((- nlit 1 (-3)) * c_ngClglob * v_nEinvKCl)%num.
(* AvcF.hpp:451 *)
Definition v_nIKglob : K := (nlit 1 (-3) * c_ngClglob * v_nEinvKCl)%num.
(* AvcF.hpp:452 *)
Definition v_aEinvKCl : K := (v_aECl - v_aEK)%num.
(* AvcF.hpp:453 *)
Definition v_aIClglob : K := ((- nlit 1 (-3)) * c_agClglob * v_aEinvKCl)%num.
(* AvcF.hpp:454 *)
Definition v_aIKglob : K := (nlit 1 (-3) * c_agClglob * v_aEinvKCl)%num.
(* AvcF.hpp:458 *)
Definition v_nIstre : K := ((- c_ngstre) * (c_nPropVol0 + nlit 50 0 * (v_nPropVol - c_nPropVol0)) / c_nPropVol0)%num.
(* AvcF.hpp:461 *)
Definition v_aIstre : K := ((- c_agstre) * (c_aPropVol0 + nlit 50 0 * (v_aPropVol - c_aPropVol0)) / c_aPropVol0)%num.
(* AvcF.hpp:466 *)
Definition v_nICl : K := (nlit 1 (-3) * c_ngCl * (v_nVm - v_nECl))%num.
(* AvcF.hpp:467 *)
Definition v_aICl : K := (nlit 1 (-3) * c_agCl * (v_aVm - v_aECl))%num.
(* AvcF.hpp:472 *)
Definition v_nSommeCourantsK : K := (v_nIKDR + v_nIBK + v_nIKNMDA + v_nIKpompeKNa + v_nIKtransporteur + v_nIKglob)%num.
(* AvcF.hpp:475 *)
Definition v_nSommeCourantsCa : K := (v_nICaHVA + v_nICaNMDA + v_nICaantiport + v_nICapompe)%num.
(* AvcF.hpp:477 *)
Definition v_nSommeCourantsNa : K := (v_nINaP + v_nINaNMDA + v_nINapompeKNa + v_nINaantiport + v_nINatransporteur)%num.
(* AvcF.hpp:480 *)
Definition v_nSommeCourantsglu : K := (v_nIglutransporteur + v_nIgludiff)%num.
(* AvcF.hpp:482 *)
Definition v_nSommeCourantsCl : K := (v_nICl + v_nIClglob + v_nIClpompe + v_nIstre)%num.
(* AvcF.hpp:491 *)
Definition v_aSommeCourantsK : K := (v_aIKDR + v_aIKir + v_aIBK + v_aIKAMPA + v_aIKpompeKNa + v_aIKtransporteur + v_aIKcotransp + v_aIKglob)%num.
(* AvcF.hpp:494 *)
Definition v_aSommeCourantsCa : K := (v_aICaHVA + v_aICaantiport + v_aICapompe)%num.
(* AvcF.hpp:497 *)
Definition v_aSommeCourantsNa : K := (v_aINaP + v_aINaAMPA + v_aINapompeKNa + v_aINaantiport + v_aINatransporteur + v_aINacotransp)%num.
(* AvcF.hpp:500 *)
Definition v_aSommeCourantsglu : K := (v_aIglutransporteur + v_aIgludiff)%num.
(* AvcF.hpp:502 *)
Definition v_aSommeCourantsCl : K := (v_aICl + v_aIClglob + v_aIClpompe + v_aIClcotransp + v_aIstre)%num.
(* AvcF.hpp:513 *)
Definition v_snfv : K := (nlit 1000 0 * c_n1 * c_nsurf / (c_F * c_v))%num.
(* AvcF.hpp:521 *)
Definition v_safv : K := (nlit 1000 0 * c_n2 * c_asurf / (c_F * c_v))%num.
(* AvcF.hpp:545 *)
Definition v_Cn : K := (v_nConIntraK + v_nConIntraNa + v_nConIntraCa + v_nConIntraCl + v_nConIntraglu)%num.
(* AvcF.hpp:546 *)
Definition v_Ca : K := (v_aConIntraK + v_aConIntraNa + v_aConIntraCa + v_aConIntraCl + v_aConIntraglu)%num.
(* AvcF.hpp:547 *)
Definition v_Ce : K := (v_ConExtraK + v_ConExtraNa + v_ConExtraCa + v_ConExtraCl + v_ConExtraglu)%num.
(* AvcF.hpp:515 *)
Definition rate0 : K := ((- v_snfv) * v_nSommeCourantsK)%num.
(* AvcF.hpp:516 *)
Definition rate1 : K := ((- v_snfv) * v_nSommeCourantsNa)%num.
(* AvcF.hpp:517 *)
Definition rate2 : K := ((- v_snfv) * v_nSommeCourantsCa / nlit 20 (-1))%num.
(* AvcF.hpp:518 *)
Definition rate3 : K := (v_snfv * v_nSommeCourantsCl)%num.
(* AvcF.hpp:519 *)
Definition rate4 : K := (v_snfv * v_nSommeCourantsglu)%num.
(* AvcF.hpp:522 *)
Definition rate5 : K := ((- v_safv) * v_aSommeCourantsK)%num.
(* AvcF.hpp:523 *)
Definition rate6 : K := ((- v_safv) * v_aSommeCourantsNa)%num.
(* AvcF.hpp:524 *)
Definition rate7 : K := ((- v_safv) * v_aSommeCourantsCa / nlit 20 (-1))%num.
(* AvcF.hpp:525 *)
Definition rate8 : K := (v_safv * v_aSommeCourantsCl)%num.
(* AvcF.hpp:526 *)
Definition rate9 : K := (v_safv * v_aSommeCourantsglu)%num.
(* AvcF.hpp:528 *)
Definition rate10 : K := (v_snfv * v_nSommeCourantsK + v_safv * v_aSommeCourantsK)%num.
(* AvcF.hpp:529 *)
Definition rate11 : K := (v_snfv * v_nSommeCourantsNa + v_safv * v_aSommeCourantsNa)%num.
(* AvcF.hpp:530 *)
Definition rate12 : K := (v_snfv * v_nSommeCourantsCa / nlit 20 (-1) + v_safv * v_aSommeCourantsCa / nlit 20 (-1))%num.
(* AvcF.hpp:531 *)
Definition rate13 : K := ((- v_snfv) * v_nSommeCourantsCl - v_safv * v_aSommeCourantsCl)%num.
(* AvcF.hpp:532 *)
Definition rate14 : K := ((- v_snfv) * v_nSommeCourantsglu - v_safv * v_aSommeCourantsglu)%num.
(* AvcF.hpp:536 *)
Definition rate15 : K := ((- nlit 10000 (-1)) * (c_nsurf / c_ncap) * (v_nSommeCourantsNa + v_nSommeCourantsK + v_nSommeCourantsCa + v_nSommeCourantsCl + v_nSommeCourantsglu))%num.
(* AvcF.hpp:540 *)
Definition rate16 : K := ((- nlit 10000 (-1)) * (c_asurf / c_acap) * (v_aSommeCourantsNa + v_aSommeCourantsK + v_aSommeCourantsCa + v_aSommeCourantsCl + v_aSommeCourantsglu))%num.
(* AvcF.hpp:552 *)
Definition rate17 : K := (c_alpha_n * (v_Cn + c_nnP0 / (c_v * v_nPropVol) - v_Ce))%num.
(* AvcF.hpp:556 *)
Definition rate18 : K := (c_alpha_a * (v_Ca + c_anP0 / (c_v * v_aPropVol) - v_Ce))%num.
End Rhs.
(* AvcF.hpp:515-556: what is stored first in z[k] *)
Definition avc_rate (t : K) (x : vec K) (k : Z) : K :=
  if k =? 0 then rate0 t x else
  if k =? 1 then rate1 t x else
  if k =? 2 then rate2 t x else
  if k =? 3 then rate3 t x else
  if k =? 4 then rate4 x else
  if k =? 5 then rate5 t x else
  if k =? 6 then rate6 t x else
  if k =? 7 then rate7 t x else
  if k =? 8 then rate8 t x else
  if k =? 9 then rate9 x else
  if k =? 10 then rate10 t x else
  if k =? 11 then rate11 t x else
  if k =? 12 then rate12 t x else
  if k =? 13 then rate13 t x else
  if k =? 14 then rate14 x else
  if k =? 15 then rate15 t x else
  if k =? 16 then rate16 t x else
  if k =? 17 then rate17 x else
  rate18 x.
(* AvcF.hpp:560-569: from amounts to concentrations; rv, rr: the results of recup *)
Definition avc_volumes (rv rr : K) (x z : vec K) : out (vec K) :=
  z <- forM 0 4 (fun i z => zi <- rd 0 20 z i ;; z17 <- rd 0 20 z 17 ;; wr 0 20 z i ((zi - x i * z17) / v_nPropVol x)%num) z ;;
  z <- forM 5 9 (fun i z => zi <- rd 0 20 z i ;; z18 <- rd 0 20 z 18 ;; wr 0 20 z i ((zi - x i * z18) / v_aPropVol x)%num) z ;;
  z <- forM 10 14 (fun i z => zi <- rd 0 20 z i ;; z17 <- rd 0 20 z 17 ;; z18 <- rd 0 20 z 18 ;;
    wr 0 20 z i ((zi + x i * (z17 + z18)) / (nlit 10 (-1) - v_aPropVol x - v_nPropVol x))%num) z ;;
  z <- wr 0 20 z 19 rv ;; wr 0 20 z 20 rr.
(* AvcF.hpp:515-569; z: the output array; r: the values of lines 515-556, which depend on t and x only *)
Definition avc_store (r : Z -> K) (rv rr : K) (x z : vec K) : out (vec K) :=
  z <- wr 0 20 z 0 (r 0) ;;
  z <- wr 0 20 z 1 (r 1) ;;
  z <- wr 0 20 z 2 (r 2) ;;
  z <- wr 0 20 z 3 (r 3) ;;
  z <- wr 0 20 z 4 (r 4) ;;
  z <- wr 0 20 z 5 (r 5) ;;
  z <- wr 0 20 z 6 (r 6) ;;
  z <- wr 0 20 z 7 (r 7) ;;
  z <- wr 0 20 z 8 (r 8) ;;
  z <- wr 0 20 z 9 (r 9) ;;
  z <- wr 0 20 z 10 (r 10) ;;
  z <- wr 0 20 z 11 (r 11) ;;
  z <- wr 0 20 z 12 (r 12) ;;
  z <- wr 0 20 z 13 (r 13) ;;
  z <- wr 0 20 z 14 (r 14) ;;
  z <- wr 0 20 z 15 (r 15) ;;
  z <- wr 0 20 z 16 (r 16) ;;
  z <- wr 0 20 z 17 (r 17) ;;
  z <- wr 0 20 z 18 (r 18) ;;
  avc_volumes rv rr x z.
(* AvcF.hpp:196-569 *)
Definition avc_rhs (t : K) (x z : vec K) : out (vec K) := avc_store (avc_rate t x) (recup_v x) (recup_r x) x z.
(* AvcF.hpp:136-191 *)
Definition avc_init (x : vec K) : out (vec K) :=
  x <- wr 0 20 x 0 (nlit 130659 (-3) * (nlit 10 (-1)))%num ;;
  x <- wr 0 20 x 1 (nlit 177391 (-4) * (nlit 10 (-1)))%num ;;
  x <- wr 0 20 x 2 (nlit 6 (-4) * (nlit 10 (-1)))%num ;;
  x <- wr 0 20 x 3 (nlit 14 0 * (nlit 10 (-1)))%num ;;
  x <- wr 0 20 x 4 (nlit 3 0 * (nlit 10 (-1)))%num ;;
  x <- wr 0 20 x 5 (nlit 130658 (-3) * (nlit 10 (-1)))%num ;;
  x <- wr 0 20 x 6 (nlit 177391 (-4) * (nlit 10 (-1)))%num ;;
  x <- wr 0 20 x 7 (nlit 6 (-4) * (nlit 10 (-1)))%num ;;
  x <- wr 0 20 x 8 (nlit 7 0 * (nlit 10 (-1)))%num ;;
  x <- wr 0 20 x 9 (nlit 3 0 * (nlit 10 (-1)))%num ;;
  x <- wr 0 20 x 10 (nlit 54 (-1) * (nlit 10 (-1)))%num ;;
  x <- wr 0 20 x 11 (nlit 140 0 * (nlit 10 (-1)))%num ;;
  x <- wr 0 20 x 12 (nlit 20 (-1) * (nlit 10 (-1)))%num ;;
  x <- wr 0 20 x 13 (nlit 149397 (-3) * (nlit 10 (-1)))%num ;;
  x <- wr 0 20 x 14 (nlit 1 (-3) * (nlit 10 (-1)))%num ;;
  x <- wr 0 20 x 15 ((- nlit 533 (-1)) * (nlit 10 (-1)))%num ;;
  x <- wr 0 20 x 16 ((- nlit 733 (-1)) * (nlit 10 (-1)))%num ;;
  x <- wr 0 20 x 17 ((nlit 8 (-1) * (nlit 25000 0) / ((nlit 10000 0) + c_k * (nlit 9000 0))) * (nlit 10000 0) / (nlit 25000 0) * (nlit 10 (-1)))%num ;;
  x <- wr 0 20 x 18 ((c_k * (nlit 8 (-1) * (nlit 25000 0) / ((nlit 10000 0) + c_k * (nlit 9000 0)))) * (nlit 9000 0) / (nlit 25000 0) * (nlit 10 (-1)))%num ;;
  x <- wr 0 20 x 19 (nlit 0 (-1))%num ;;
  wr 0 20 x 20 (nlit 0 (-1))%num.
(* AvcF.hpp:57 (Rodas-NG only): static const bool autonomous *)
Definition avc_autonomous : bool := true.
End Avc.
