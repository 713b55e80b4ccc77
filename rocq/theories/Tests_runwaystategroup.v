(** Generated by tools/gen_tests.py from /repo/test/test_runwaystategroup.cpp: the project's own unit tests, run
    against the model. These are tests of the model's fidelity, not properties. *)

From Verif Require Import Prim Regex Float Values Weather Groups1 Groups2 Groups3 Groups4 Parser TestLib.
Local Open Scope string_scope.
Local Open Scope bool_scope.

Definition t_RunwayStateGroup_parseRwState : option N :=
    step 21 ((RunwayStateGroup_parse "R16/290155" RP_METAR md_default)) (fun v1 => 
    chk 22 (Ok (has_value v1)) (
    chk 23 (let! v2 := deref v1 in Ok (N.eqb (rNumber (rs_rw v2)) 16%N)) (
    chk 24 (let! v3 := deref v1 in Ok (RwDesignator_beq (rDesignator (rs_rw v3)) Rw_NONE)) (
    chk 25 (let! v4 := deref v1 in Ok (RsType_beq (rs_tp v4) Rs_RUNWAY_STATE)) (
    chk 26 (let! v5 := deref v1 in Ok (RsDeposits_beq (rs_dp v5) De_WET_AND_WATER_PATCHES)) (
    chk 27 (let! v6 := deref v1 in Ok (RsExtent_beq (rs_ext v6) Ex_MORE_THAN_51_PERCENT)) (
    chk 28 (let! v7 := deref v1 in let! v8 := deref (precipValue (rs_dDepth v7)) in Ok (flt_eqb v8 (dlit (1) 1))) (
    chk 29 (let! v9 := deref v1 in Ok (SfType_beq (sfType (rs_sf v9)) Sf_SURFACE_FRICTION_REPORTED)) (
    chk 31 (let! v10 := deref v1 in Ok (has_value (SurfaceFriction_coefficient (rs_sf v10)))) (
    chk 32 (let! v11 := deref v1 in let! v12 := deref (SurfaceFriction_coefficient (rs_sf v11)) in Ok (near v12 (dlit (11) 20) (dlit (1) 200))) (
    None))))))))))).

Definition t_RunwayStateGroup_parseRwStateRunwayWithDesignator : option N :=
    step 36 ((RunwayStateGroup_parse "R16R/290155" RP_METAR md_default)) (fun v1 => 
    chk 37 (Ok (has_value v1)) (
    chk 38 (let! v2 := deref v1 in Ok (N.eqb (rNumber (rs_rw v2)) 16%N)) (
    chk 39 (let! v3 := deref v1 in Ok (RwDesignator_beq (rDesignator (rs_rw v3)) Rw_RIGHT)) (
    chk 40 (let! v4 := deref v1 in Ok (RsType_beq (rs_tp v4) Rs_RUNWAY_STATE)) (
    step 42 ((RunwayStateGroup_parse "R16L/290155" RP_METAR md_default)) (fun v5 => 
    chk 43 (Ok (has_value v5)) (
    chk 44 (let! v6 := deref v5 in Ok (N.eqb (rNumber (rs_rw v6)) 16%N)) (
    chk 45 (let! v7 := deref v5 in Ok (RwDesignator_beq (rDesignator (rs_rw v7)) Rw_LEFT)) (
    chk 46 (let! v8 := deref v5 in Ok (RsType_beq (rs_tp v8) Rs_RUNWAY_STATE)) (
    step 48 ((RunwayStateGroup_parse "R16C/290155" RP_METAR md_default)) (fun v9 => 
    chk 49 (Ok (has_value v9)) (
    chk 50 (let! v10 := deref v9 in Ok (N.eqb (rNumber (rs_rw v10)) 16%N)) (
    chk 51 (let! v11 := deref v9 in Ok (RwDesignator_beq (rDesignator (rs_rw v11)) Rw_CENTER)) (
    chk 52 (let! v12 := deref v9 in Ok (RsType_beq (rs_tp v12) Rs_RUNWAY_STATE)) (
    None))))))))))))))).

Definition t_RunwayStateGroup_parseRwStateRunwayNotOperational : option N :=
    step 56 ((RunwayStateGroup_parse "R16/8999//" RP_METAR md_default)) (fun v1 => 
    chk 57 (Ok (has_value v1)) (
    chk 58 (let! v2 := deref v1 in Ok (N.eqb (rNumber (rs_rw v2)) 16%N)) (
    chk 59 (let! v3 := deref v1 in Ok (RwDesignator_beq (rDesignator (rs_rw v3)) Rw_NONE)) (
    chk 60 (let! v4 := deref v1 in Ok (RsType_beq (rs_tp v4) Rs_RUNWAY_NOT_OPERATIONAL)) (
    chk 61 (let! v5 := deref v1 in Ok (RsDeposits_beq (rs_dp v5) De_COMPACTED_OR_ROLLED_SNOW)) (
    chk 62 (let! v6 := deref v1 in Ok (RsExtent_beq (rs_ext v6) Ex_MORE_THAN_51_PERCENT)) (
    chk 63 (let! v7 := deref v1 in Ok (negb (Precipitation_isReported (rs_dDepth v7)))) (
    chk 64 (let! v8 := deref v1 in Ok (SfType_beq (sfType (rs_sf v8)) Sf_NOT_REPORTED)) (
    None))))))))).

Definition t_RunwayStateGroup_parseRwStateDepositDepthNotReported : option N :=
    step 69 ((RunwayStateGroup_parse "R16/29//55" RP_METAR md_default)) (fun v1 => 
    chk 70 (Ok (has_value v1)) (
    chk 71 (let! v2 := deref v1 in Ok (N.eqb (rNumber (rs_rw v2)) 16%N)) (
    chk 72 (let! v3 := deref v1 in Ok (RwDesignator_beq (rDesignator (rs_rw v3)) Rw_NONE)) (
    chk 73 (let! v4 := deref v1 in Ok (RsType_beq (rs_tp v4) Rs_RUNWAY_STATE)) (
    chk 74 (let! v5 := deref v1 in Ok (RsDeposits_beq (rs_dp v5) De_WET_AND_WATER_PATCHES)) (
    chk 75 (let! v6 := deref v1 in Ok (RsExtent_beq (rs_ext v6) Ex_MORE_THAN_51_PERCENT)) (
    chk 76 (let! v7 := deref v1 in Ok (negb (Precipitation_isReported (rs_dDepth v7)))) (
    chk 77 (let! v8 := deref v1 in Ok (SfType_beq (sfType (rs_sf v8)) Sf_SURFACE_FRICTION_REPORTED)) (
    chk 79 (let! v9 := deref v1 in Ok (has_value (SurfaceFriction_coefficient (rs_sf v9)))) (
    chk 80 (let! v10 := deref v1 in let! v11 := deref (SurfaceFriction_coefficient (rs_sf v10)) in Ok (near v11 (dlit (11) 20) (dlit (1) 200))) (
    None))))))))))).

Definition t_RunwayStateGroup_parseRwStateSurfaceFrictionNotReported : option N :=
    step 84 ((RunwayStateGroup_parse "R16/2901//" RP_METAR md_default)) (fun v1 => 
    chk 85 (Ok (has_value v1)) (
    chk 86 (let! v2 := deref v1 in Ok (N.eqb (rNumber (rs_rw v2)) 16%N)) (
    chk 87 (let! v3 := deref v1 in Ok (RwDesignator_beq (rDesignator (rs_rw v3)) Rw_NONE)) (
    chk 88 (let! v4 := deref v1 in Ok (RsType_beq (rs_tp v4) Rs_RUNWAY_STATE)) (
    chk 89 (let! v5 := deref v1 in Ok (RsDeposits_beq (rs_dp v5) De_WET_AND_WATER_PATCHES)) (
    chk 90 (let! v6 := deref v1 in Ok (RsExtent_beq (rs_ext v6) Ex_MORE_THAN_51_PERCENT)) (
    chk 91 (let! v7 := deref v1 in let! v8 := deref (precipValue (rs_dDepth v7)) in Ok (flt_eqb v8 (dlit (1) 1))) (
    chk 92 (let! v9 := deref v1 in Ok (SfType_beq (sfType (rs_sf v9)) Sf_NOT_REPORTED)) (
    None))))))))).

Definition t_RunwayStateGroup_parseRwStateDepositValues : option N :=
    step 96 ((RunwayStateGroup_parse "R16/09//55" RP_METAR md_default)) (fun v1 => 
    chk 97 (Ok (has_value v1)) (
    chk 98 (let! v2 := deref v1 in Ok (RsDeposits_beq (rs_dp v2) De_CLEAR_AND_DRY)) (
    step 100 ((RunwayStateGroup_parse "R16/19//55" RP_METAR md_default)) (fun v3 => 
    chk 101 (Ok (has_value v3)) (
    chk 102 (let! v4 := deref v3 in Ok (RsDeposits_beq (rs_dp v4) De_DAMP)) (
    step 104 ((RunwayStateGroup_parse "R16/29//55" RP_METAR md_default)) (fun v5 => 
    chk 105 (Ok (has_value v5)) (
    chk 106 (let! v6 := deref v5 in Ok (RsDeposits_beq (rs_dp v6) De_WET_AND_WATER_PATCHES)) (
    step 108 ((RunwayStateGroup_parse "R16/39//55" RP_METAR md_default)) (fun v7 => 
    chk 109 (Ok (has_value v7)) (
    chk 110 (let! v8 := deref v7 in Ok (RsDeposits_beq (rs_dp v8) De_RIME_AND_FROST_COVERED)) (
    step 112 ((RunwayStateGroup_parse "R16/49//55" RP_METAR md_default)) (fun v9 => 
    chk 113 (Ok (has_value v9)) (
    chk 114 (let! v10 := deref v9 in Ok (RsDeposits_beq (rs_dp v10) De_DRY_SNOW)) (
    step 116 ((RunwayStateGroup_parse "R16/59//55" RP_METAR md_default)) (fun v11 => 
    chk 117 (Ok (has_value v11)) (
    chk 118 (let! v12 := deref v11 in Ok (RsDeposits_beq (rs_dp v12) De_WET_SNOW)) (
    step 120 ((RunwayStateGroup_parse "R16/69//55" RP_METAR md_default)) (fun v13 => 
    chk 121 (Ok (has_value v13)) (
    chk 122 (let! v14 := deref v13 in Ok (RsDeposits_beq (rs_dp v14) De_SLUSH)) (
    step 124 ((RunwayStateGroup_parse "R16/79//55" RP_METAR md_default)) (fun v15 => 
    chk 125 (Ok (has_value v15)) (
    chk 126 (let! v16 := deref v15 in Ok (RsDeposits_beq (rs_dp v16) De_ICE)) (
    step 128 ((RunwayStateGroup_parse "R16/89//55" RP_METAR md_default)) (fun v17 => 
    chk 129 (Ok (has_value v17)) (
    chk 130 (let! v18 := deref v17 in Ok (RsDeposits_beq (rs_dp v18) De_COMPACTED_OR_ROLLED_SNOW)) (
    step 132 ((RunwayStateGroup_parse "R16/99//55" RP_METAR md_default)) (fun v19 => 
    chk 133 (Ok (has_value v19)) (
    chk 134 (let! v20 := deref v19 in Ok (RsDeposits_beq (rs_dp v20) De_FROZEN_RUTS_OR_RIDGES)) (
    None)))))))))))))))))))))))))))))).

Definition t_RunwayStateGroup_parseRwStateDepositsNotReported : option N :=
    step 138 ((RunwayStateGroup_parse "R16//9//55" RP_METAR md_default)) (fun v1 => 
    chk 139 (Ok (has_value v1)) (
    chk 140 (let! v2 := deref v1 in Ok (RsDeposits_beq (rs_dp v2) De_NOT_REPORTED)) (
    None))).

Definition t_RunwayStateGroup_parseRwStateExtentValues : option N :=
    step 144 ((RunwayStateGroup_parse "R16/700155" RP_METAR md_default)) (fun v1 => 
    chk 145 (Ok (has_value v1)) (
    chk 146 (let! v2 := deref v1 in Ok (RsExtent_beq (rs_ext v2) Ex_NONE)) (
    step 148 ((RunwayStateGroup_parse "R16/710155" RP_METAR md_default)) (fun v3 => 
    chk 149 (Ok (has_value v3)) (
    chk 150 (let! v4 := deref v3 in Ok (RsExtent_beq (rs_ext v4) Ex_LESS_THAN_10_PERCENT)) (
    step 152 ((RunwayStateGroup_parse "R16/720155" RP_METAR md_default)) (fun v5 => 
    chk 153 (Ok (has_value v5)) (
    chk 154 (let! v6 := deref v5 in Ok (RsExtent_beq (rs_ext v6) Ex_FROM_11_TO_25_PERCENT)) (
    step 156 ((RunwayStateGroup_parse "R16/730155" RP_METAR md_default)) (fun v7 => 
    chk 157 (Ok (has_value v7)) (
    chk 158 (let! v8 := deref v7 in Ok (RsExtent_beq (rs_ext v8) Ex_RESERVED_3)) (
    step 160 ((RunwayStateGroup_parse "R16/740155" RP_METAR md_default)) (fun v9 => 
    chk 161 (Ok (has_value v9)) (
    chk 162 (let! v10 := deref v9 in Ok (RsExtent_beq (rs_ext v10) Ex_RESERVED_4)) (
    step 164 ((RunwayStateGroup_parse "R16/750155" RP_METAR md_default)) (fun v11 => 
    chk 165 (Ok (has_value v11)) (
    chk 166 (let! v12 := deref v11 in Ok (RsExtent_beq (rs_ext v12) Ex_FROM_26_TO_50_PERCENT)) (
    step 168 ((RunwayStateGroup_parse "R16/760155" RP_METAR md_default)) (fun v13 => 
    chk 169 (Ok (has_value v13)) (
    chk 170 (let! v14 := deref v13 in Ok (RsExtent_beq (rs_ext v14) Ex_RESERVED_6)) (
    step 172 ((RunwayStateGroup_parse "R16/770155" RP_METAR md_default)) (fun v15 => 
    chk 173 (Ok (has_value v15)) (
    chk 174 (let! v16 := deref v15 in Ok (RsExtent_beq (rs_ext v16) Ex_RESERVED_7)) (
    step 176 ((RunwayStateGroup_parse "R16/780155" RP_METAR md_default)) (fun v17 => 
    chk 177 (Ok (has_value v17)) (
    chk 178 (let! v18 := deref v17 in Ok (RsExtent_beq (rs_ext v18) Ex_RESERVED_8)) (
    step 180 ((RunwayStateGroup_parse "R16/790155" RP_METAR md_default)) (fun v19 => 
    chk 181 (Ok (has_value v19)) (
    chk 182 (let! v20 := deref v19 in Ok (RsExtent_beq (rs_ext v20) Ex_MORE_THAN_51_PERCENT)) (
    None)))))))))))))))))))))))))))))).

Definition t_RunwayStateGroup_parseRwStateExtentNotReported : option N :=
    step 186 ((RunwayStateGroup_parse "R16/7/0155" RP_METAR md_default)) (fun v1 => 
    chk 187 (Ok (has_value v1)) (
    chk 188 (let! v2 := deref v1 in Ok (RsExtent_beq (rs_ext v2) Ex_NOT_REPORTED)) (
    None))).

Definition t_RunwayStateGroup_parseRwStateAllNotReported : option N :=
    step 192 ((RunwayStateGroup_parse "R33///////" RP_METAR md_default)) (fun v1 => 
    chk 193 (Ok (has_value v1)) (
    chk 194 (let! v2 := deref v1 in Ok (N.eqb (rNumber (rs_rw v2)) 33%N)) (
    chk 195 (let! v3 := deref v1 in Ok (RwDesignator_beq (rDesignator (rs_rw v3)) Rw_NONE)) (
    chk 196 (let! v4 := deref v1 in Ok (RsType_beq (rs_tp v4) Rs_RUNWAY_STATE)) (
    chk 197 (let! v5 := deref v1 in Ok (RsDeposits_beq (rs_dp v5) De_NOT_REPORTED)) (
    chk 198 (let! v6 := deref v1 in Ok (RsExtent_beq (rs_ext v6) Ex_NOT_REPORTED)) (
    chk 199 (let! v7 := deref v1 in Ok (negb (Precipitation_isReported (rs_dDepth v7)))) (
    chk 200 (let! v8 := deref v1 in Ok (SfType_beq (sfType (rs_sf v8)) Sf_NOT_REPORTED)) (
    None))))))))).

Definition t_RunwayStateGroup_parseRwStateWrongReportPart : option N :=
    chk 204 (let! v1 := (RunwayStateGroup_parse "R16/290155" RP_UNKNOWN md_default) in Ok (negb (has_value v1))) (
    chk 205 (let! v2 := (RunwayStateGroup_parse "R16/290155" RP_HEADER md_default) in Ok (negb (has_value v2))) (
    chk 206 (let! v3 := (RunwayStateGroup_parse "R16/290155" RP_TAF md_default) in Ok (negb (has_value v3))) (
    chk 207 (let! v4 := (RunwayStateGroup_parse "R16/290155" RP_RMK md_default) in Ok (negb (has_value v4))) (
    None)))).

Definition t_RunwayStateGroup_parseRwStateWrongFormat : option N :=
    chk 211 (let! v1 := (RunwayStateGroup_parse "R21V290155" RP_METAR md_default) in Ok (negb (has_value v1))) (
    chk 212 (let! v2 := (RunwayStateGroup_parse "R1/290155" RP_METAR md_default) in Ok (negb (has_value v2))) (
    chk 213 (let! v3 := (RunwayStateGroup_parse "R112/290155" RP_METAR md_default) in Ok (negb (has_value v3))) (
    chk 214 (let! v4 := (RunwayStateGroup_parse "R1A/290155" RP_METAR md_default) in Ok (negb (has_value v4))) (
    chk 215 (let! v5 := (RunwayStateGroup_parse "R21Z/290155" RP_METAR md_default) in Ok (negb (has_value v5))) (
    chk 216 (let! v6 := (RunwayStateGroup_parse "R21/2900155" RP_METAR md_default) in Ok (negb (has_value v6))) (
    chk 217 (let! v7 := (RunwayStateGroup_parse "R21/29155" RP_METAR md_default) in Ok (negb (has_value v7))) (
    chk 218 (let! v8 := (RunwayStateGroup_parse "R21/A90155" RP_METAR md_default) in Ok (negb (has_value v8))) (
    chk 219 (let! v9 := (RunwayStateGroup_parse "R21/2A0155" RP_METAR md_default) in Ok (negb (has_value v9))) (
    chk 220 (let! v10 := (RunwayStateGroup_parse "R21/290A55" RP_METAR md_default) in Ok (negb (has_value v10))) (
    chk 221 (let! v11 := (RunwayStateGroup_parse "R21/29010A" RP_METAR md_default) in Ok (negb (has_value v11))) (
    chk 222 (let! v12 := (RunwayStateGroup_parse "R21//////" RP_METAR md_default) in Ok (negb (has_value v12))) (
    chk 223 (let! v13 := (RunwayStateGroup_parse "R21////////" RP_METAR md_default) in Ok (negb (has_value v13))) (
    chk 224 (let! v14 := (RunwayStateGroup_parse "R21/A/////" RP_METAR md_default) in Ok (negb (has_value v14))) (
    chk 225 (let! v15 := (RunwayStateGroup_parse "R21//A////" RP_METAR md_default) in Ok (negb (has_value v15))) (
    chk 226 (let! v16 := (RunwayStateGroup_parse "R21////A//" RP_METAR md_default) in Ok (negb (has_value v16))) (
    chk 227 (let! v17 := (RunwayStateGroup_parse "R21//////A" RP_METAR md_default) in Ok (negb (has_value v17))) (
    None))))))))))))))))).

Definition t_RunwayStateGroup_parseClrdSurfaceFrictionReported : option N :=
    step 238 ((RunwayStateGroup_parse "R88/CLRD70" RP_METAR md_default)) (fun v1 => 
    chk 239 (Ok (has_value v1)) (
    chk 240 (let! v2 := deref v1 in Ok (N.eqb (rNumber (rs_rw v2)) 88%N)) (
    chk 241 (let! v3 := deref v1 in Ok (RwDesignator_beq (rDesignator (rs_rw v3)) Rw_NONE)) (
    chk 242 (let! v4 := deref v1 in Ok (RsType_beq (rs_tp v4) Rs_RUNWAY_CLRD)) (
    chk 243 (let! v5 := deref v1 in Ok (RsDeposits_beq (rs_dp v5) De_NOT_REPORTED)) (
    chk 244 (let! v6 := deref v1 in Ok (RsExtent_beq (rs_ext v6) Ex_NOT_REPORTED)) (
    chk 245 (let! v7 := deref v1 in Ok (negb (Precipitation_isReported (rs_dDepth v7)))) (
    chk 246 (let! v8 := deref v1 in Ok (SfType_beq (sfType (rs_sf v8)) Sf_SURFACE_FRICTION_REPORTED)) (
    chk 248 (let! v9 := deref v1 in Ok (has_value (SurfaceFriction_coefficient (rs_sf v9)))) (
    chk 249 (let! v10 := deref v1 in let! v11 := deref (SurfaceFriction_coefficient (rs_sf v10)) in Ok (near v11 (dlit (7) 10) (dlit (1) 200))) (
    None))))))))))).

Definition t_RunwayStateGroup_parseClrdSurfaceFrictionNotReported : option N :=
    step 253 ((RunwayStateGroup_parse "R99/CLRD//" RP_METAR md_default)) (fun v1 => 
    chk 254 (Ok (has_value v1)) (
    chk 255 (let! v2 := deref v1 in Ok (N.eqb (rNumber (rs_rw v2)) 99%N)) (
    chk 256 (let! v3 := deref v1 in Ok (RwDesignator_beq (rDesignator (rs_rw v3)) Rw_NONE)) (
    chk 257 (let! v4 := deref v1 in Ok (RsType_beq (rs_tp v4) Rs_RUNWAY_CLRD)) (
    chk 258 (let! v5 := deref v1 in Ok (RsDeposits_beq (rs_dp v5) De_NOT_REPORTED)) (
    chk 259 (let! v6 := deref v1 in Ok (RsExtent_beq (rs_ext v6) Ex_NOT_REPORTED)) (
    chk 260 (let! v7 := deref v1 in Ok (negb (Precipitation_isReported (rs_dDepth v7)))) (
    chk 261 (let! v8 := deref v1 in Ok (SfType_beq (sfType (rs_sf v8)) Sf_NOT_REPORTED)) (
    None))))))))).

Definition t_RunwayStateGroup_parseClrdRunwayWithDesignator : option N :=
    step 265 ((RunwayStateGroup_parse "R21R/CLRD70" RP_METAR md_default)) (fun v1 => 
    chk 266 (Ok (has_value v1)) (
    chk 267 (let! v2 := deref v1 in Ok (N.eqb (rNumber (rs_rw v2)) 21%N)) (
    chk 268 (let! v3 := deref v1 in Ok (RwDesignator_beq (rDesignator (rs_rw v3)) Rw_RIGHT)) (
    chk 269 (let! v4 := deref v1 in Ok (RsType_beq (rs_tp v4) Rs_RUNWAY_CLRD)) (
    chk 270 (let! v5 := deref v1 in Ok (SfType_beq (sfType (rs_sf v5)) Sf_SURFACE_FRICTION_REPORTED)) (
    step 273 ((RunwayStateGroup_parse "R21L/CLRD70" RP_METAR md_default)) (fun v6 => 
    chk 274 (Ok (has_value v6)) (
    chk 275 (let! v7 := deref v6 in Ok (N.eqb (rNumber (rs_rw v7)) 21%N)) (
    chk 276 (let! v8 := deref v6 in Ok (RwDesignator_beq (rDesignator (rs_rw v8)) Rw_LEFT)) (
    chk 277 (let! v9 := deref v6 in Ok (RsType_beq (rs_tp v9) Rs_RUNWAY_CLRD)) (
    chk 278 (let! v10 := deref v6 in Ok (SfType_beq (sfType (rs_sf v10)) Sf_SURFACE_FRICTION_REPORTED)) (
    step 281 ((RunwayStateGroup_parse "R21C/CLRD70" RP_METAR md_default)) (fun v11 => 
    chk 282 (Ok (has_value v11)) (
    chk 283 (let! v12 := deref v11 in Ok (N.eqb (rNumber (rs_rw v12)) 21%N)) (
    chk 284 (let! v13 := deref v11 in Ok (RwDesignator_beq (rDesignator (rs_rw v13)) Rw_CENTER)) (
    chk 285 (let! v14 := deref v11 in Ok (RsType_beq (rs_tp v14) Rs_RUNWAY_CLRD)) (
    chk 286 (let! v15 := deref v11 in Ok (SfType_beq (sfType (rs_sf v15)) Sf_SURFACE_FRICTION_REPORTED)) (
    None)))))))))))))))))).

Definition t_RunwayStateGroup_parseClrdWrongReportPart : option N :=
    chk 291 (let! v1 := (RunwayStateGroup_parse "R21L/CLRD70" RP_UNKNOWN md_default) in Ok (negb (has_value v1))) (
    chk 292 (let! v2 := (RunwayStateGroup_parse "R21L/CLRD70" RP_HEADER md_default) in Ok (negb (has_value v2))) (
    chk 293 (let! v3 := (RunwayStateGroup_parse "R21L/CLRD70" RP_TAF md_default) in Ok (negb (has_value v3))) (
    chk 294 (let! v4 := (RunwayStateGroup_parse "R21L/CLRD70" RP_RMK md_default) in Ok (negb (has_value v4))) (
    None)))).

Definition t_RunwayStateGroup_parseClrdWrongFormat : option N :=
    chk 298 (let! v1 := (RunwayStateGroup_parse "R21VCLRD70" RP_METAR md_default) in Ok (negb (has_value v1))) (
    chk 299 (let! v2 := (RunwayStateGroup_parse "R1/CLRD70" RP_METAR md_default) in Ok (negb (has_value v2))) (
    chk 300 (let! v3 := (RunwayStateGroup_parse "R112/CLRD70" RP_METAR md_default) in Ok (negb (has_value v3))) (
    chk 301 (let! v4 := (RunwayStateGroup_parse "R1A/CLRD70" RP_METAR md_default) in Ok (negb (has_value v4))) (
    chk 302 (let! v5 := (RunwayStateGroup_parse "R21Z/CLRD70" RP_METAR md_default) in Ok (negb (has_value v5))) (
    chk 303 (let! v6 := (RunwayStateGroup_parse "R21/CRRD70" RP_METAR md_default) in Ok (negb (has_value v6))) (
    chk 304 (let! v7 := (RunwayStateGroup_parse "R21/CRRD" RP_METAR md_default) in Ok (negb (has_value v7))) (
    chk 305 (let! v8 := (RunwayStateGroup_parse "R21/CRRD7" RP_METAR md_default) in Ok (negb (has_value v8))) (
    chk 306 (let! v9 := (RunwayStateGroup_parse "R21/CRRD070" RP_METAR md_default) in Ok (negb (has_value v9))) (
    chk 307 (let! v10 := (RunwayStateGroup_parse "R21/CRRD7A" RP_METAR md_default) in Ok (negb (has_value v10))) (
    chk 308 (let! v11 := (RunwayStateGroup_parse "R21/CRRD/" RP_METAR md_default) in Ok (negb (has_value v11))) (
    chk 309 (let! v12 := (RunwayStateGroup_parse "R21/CRRD///" RP_METAR md_default) in Ok (negb (has_value v12))) (
    None)))))))))))).

Definition t_RunwayStateGroup_parseClrdAvcSurfaceFrictionReported : option N :=
    step 320 ((RunwayStateGroup_parse "R88/70D" RP_METAR md_default)) (fun v1 => 
    chk 321 (Ok (has_value v1)) (
    chk 322 (let! v2 := deref v1 in Ok (N.eqb (rNumber (rs_rw v2)) 88%N)) (
    chk 323 (let! v3 := deref v1 in Ok (RwDesignator_beq (rDesignator (rs_rw v3)) Rw_NONE)) (
    chk 324 (let! v4 := deref v1 in Ok (RsType_beq (rs_tp v4) Rs_RUNWAY_CLRD)) (
    chk 325 (let! v5 := deref v1 in Ok (RsDeposits_beq (rs_dp v5) De_NOT_REPORTED)) (
    chk 326 (let! v6 := deref v1 in Ok (RsExtent_beq (rs_ext v6) Ex_NOT_REPORTED)) (
    chk 327 (let! v7 := deref v1 in Ok (negb (Precipitation_isReported (rs_dDepth v7)))) (
    chk 328 (let! v8 := deref v1 in Ok (SfType_beq (sfType (rs_sf v8)) Sf_SURFACE_FRICTION_REPORTED)) (
    chk 330 (let! v9 := deref v1 in Ok (has_value (SurfaceFriction_coefficient (rs_sf v9)))) (
    chk 331 (let! v10 := deref v1 in let! v11 := deref (SurfaceFriction_coefficient (rs_sf v10)) in Ok (near v11 (dlit (7) 10) (dlit (1) 200))) (
    None))))))))))).

Definition t_RunwayStateGroup_parseClrdAvcSurfaceFrictionMissing : option N :=
    step 335 ((RunwayStateGroup_parse "R13/D" RP_METAR md_default)) (fun v1 => 
    chk 336 (Ok (has_value v1)) (
    chk 337 (let! v2 := deref v1 in Ok (N.eqb (rNumber (rs_rw v2)) 13%N)) (
    chk 338 (let! v3 := deref v1 in Ok (RwDesignator_beq (rDesignator (rs_rw v3)) Rw_NONE)) (
    chk 339 (let! v4 := deref v1 in Ok (RsType_beq (rs_tp v4) Rs_RUNWAY_CLRD)) (
    chk 340 (let! v5 := deref v1 in Ok (RsDeposits_beq (rs_dp v5) De_NOT_REPORTED)) (
    chk 341 (let! v6 := deref v1 in Ok (RsExtent_beq (rs_ext v6) Ex_NOT_REPORTED)) (
    chk 342 (let! v7 := deref v1 in Ok (negb (Precipitation_isReported (rs_dDepth v7)))) (
    chk 343 (let! v8 := deref v1 in Ok (SfType_beq (sfType (rs_sf v8)) Sf_NOT_REPORTED)) (
    None))))))))).

Definition t_RunwayStateGroup_parseClrdAvcRunwayWithDesignator : option N :=
    step 347 ((RunwayStateGroup_parse "R21R/70D" RP_METAR md_default)) (fun v1 => 
    chk 348 (Ok (has_value v1)) (
    chk 349 (let! v2 := deref v1 in Ok (N.eqb (rNumber (rs_rw v2)) 21%N)) (
    chk 350 (let! v3 := deref v1 in Ok (RwDesignator_beq (rDesignator (rs_rw v3)) Rw_RIGHT)) (
    chk 351 (let! v4 := deref v1 in Ok (RsType_beq (rs_tp v4) Rs_RUNWAY_CLRD)) (
    chk 352 (let! v5 := deref v1 in Ok (SfType_beq (sfType (rs_sf v5)) Sf_SURFACE_FRICTION_REPORTED)) (
    step 355 ((RunwayStateGroup_parse "R21L/70D" RP_METAR md_default)) (fun v6 => 
    chk 356 (Ok (has_value v6)) (
    chk 357 (let! v7 := deref v6 in Ok (N.eqb (rNumber (rs_rw v7)) 21%N)) (
    chk 358 (let! v8 := deref v6 in Ok (RwDesignator_beq (rDesignator (rs_rw v8)) Rw_LEFT)) (
    chk 359 (let! v9 := deref v6 in Ok (RsType_beq (rs_tp v9) Rs_RUNWAY_CLRD)) (
    chk 360 (let! v10 := deref v6 in Ok (SfType_beq (sfType (rs_sf v10)) Sf_SURFACE_FRICTION_REPORTED)) (
    step 363 ((RunwayStateGroup_parse "R21C/70D" RP_METAR md_default)) (fun v11 => 
    chk 364 (Ok (has_value v11)) (
    chk 365 (let! v12 := deref v11 in Ok (N.eqb (rNumber (rs_rw v12)) 21%N)) (
    chk 366 (let! v13 := deref v11 in Ok (RwDesignator_beq (rDesignator (rs_rw v13)) Rw_CENTER)) (
    chk 367 (let! v14 := deref v11 in Ok (RsType_beq (rs_tp v14) Rs_RUNWAY_CLRD)) (
    chk 368 (let! v15 := deref v11 in Ok (SfType_beq (sfType (rs_sf v15)) Sf_SURFACE_FRICTION_REPORTED)) (
    None)))))))))))))))))).

Definition t_RunwayStateGroup_parseClrdAvcWrongReportPart : option N :=
    chk 373 (let! v1 := (RunwayStateGroup_parse "R21L/70D" RP_UNKNOWN md_default) in Ok (negb (has_value v1))) (
    chk 374 (let! v2 := (RunwayStateGroup_parse "R21L/70D" RP_HEADER md_default) in Ok (negb (has_value v2))) (
    chk 375 (let! v3 := (RunwayStateGroup_parse "R21L/70D" RP_TAF md_default) in Ok (negb (has_value v3))) (
    chk 376 (let! v4 := (RunwayStateGroup_parse "R21L/70D" RP_RMK md_default) in Ok (negb (has_value v4))) (
    None)))).

Definition t_RunwayStateGroup_parseClrdAvcWrongFormat : option N :=
    chk 380 (let! v1 := (RunwayStateGroup_parse "R21V70D" RP_METAR md_default) in Ok (negb (has_value v1))) (
    chk 381 (let! v2 := (RunwayStateGroup_parse "R1/70D" RP_METAR md_default) in Ok (negb (has_value v2))) (
    chk 382 (let! v3 := (RunwayStateGroup_parse "R112/70D" RP_METAR md_default) in Ok (negb (has_value v3))) (
    chk 383 (let! v4 := (RunwayStateGroup_parse "R1A/70D" RP_METAR md_default) in Ok (negb (has_value v4))) (
    chk 384 (let! v5 := (RunwayStateGroup_parse "R21Z/70D" RP_METAR md_default) in Ok (negb (has_value v5))) (
    chk 385 (let! v6 := (RunwayStateGroup_parse "R21/7D" RP_METAR md_default) in Ok (negb (has_value v6))) (
    chk 386 (let! v7 := (RunwayStateGroup_parse "R21/070D" RP_METAR md_default) in Ok (negb (has_value v7))) (
    chk 387 (let! v8 := (RunwayStateGroup_parse "R21/7AD" RP_METAR md_default) in Ok (negb (has_value v8))) (
    chk 388 (let! v9 := (RunwayStateGroup_parse "R21///D" RP_METAR md_default) in Ok (negb (has_value v9))) (
    chk 389 (let! v10 := (RunwayStateGroup_parse "R21//4D" RP_METAR md_default) in Ok (negb (has_value v10))) (
    chk 390 (let! v11 := (RunwayStateGroup_parse "R21/4/D" RP_METAR md_default) in Ok (negb (has_value v11))) (
    chk 391 (let! v12 := (RunwayStateGroup_parse "R21//ZD" RP_METAR md_default) in Ok (negb (has_value v12))) (
    chk 392 (let! v13 := (RunwayStateGroup_parse "R21/Z/D" RP_METAR md_default) in Ok (negb (has_value v13))) (
    chk 393 (let! v14 := (RunwayStateGroup_parse "R21//D" RP_METAR md_default) in Ok (negb (has_value v14))) (
    chk 394 (let! v15 := (RunwayStateGroup_parse "R21////D" RP_METAR md_default) in Ok (negb (has_value v15))) (
    None))))))))))))))).

Definition t_RunwayStateGroup_parseSnocloRunway : option N :=
    step 405 ((RunwayStateGroup_parse "R21/SNOCLO" RP_METAR md_default)) (fun v1 => 
    chk 406 (Ok (has_value v1)) (
    chk 407 (let! v2 := deref v1 in Ok (N.eqb (rNumber (rs_rw v2)) 21%N)) (
    chk 408 (let! v3 := deref v1 in Ok (RwDesignator_beq (rDesignator (rs_rw v3)) Rw_NONE)) (
    chk 409 (let! v4 := deref v1 in Ok (RsType_beq (rs_tp v4) Rs_RUNWAY_SNOCLO)) (
    chk 410 (let! v5 := deref v1 in Ok (RsDeposits_beq (rs_dp v5) De_NOT_REPORTED)) (
    chk 411 (let! v6 := deref v1 in Ok (RsExtent_beq (rs_ext v6) Ex_NOT_REPORTED)) (
    chk 412 (let! v7 := deref v1 in Ok (negb (Precipitation_isReported (rs_dDepth v7)))) (
    chk 413 (let! v8 := deref v1 in Ok (SfType_beq (sfType (rs_sf v8)) Sf_NOT_REPORTED)) (
    None))))))))).

Definition t_RunwayStateGroup_parseSnocloRunwayWithDesignator : option N :=
    step 417 ((RunwayStateGroup_parse "R21R/SNOCLO" RP_METAR md_default)) (fun v1 => 
    chk 418 (Ok (has_value v1)) (
    chk 419 (let! v2 := deref v1 in Ok (N.eqb (rNumber (rs_rw v2)) 21%N)) (
    chk 420 (let! v3 := deref v1 in Ok (RwDesignator_beq (rDesignator (rs_rw v3)) Rw_RIGHT)) (
    chk 421 (let! v4 := deref v1 in Ok (RsType_beq (rs_tp v4) Rs_RUNWAY_SNOCLO)) (
    step 423 ((RunwayStateGroup_parse "R21L/SNOCLO" RP_METAR md_default)) (fun v5 => 
    chk 424 (Ok (has_value v5)) (
    chk 425 (let! v6 := deref v5 in Ok (N.eqb (rNumber (rs_rw v6)) 21%N)) (
    chk 426 (let! v7 := deref v5 in Ok (RwDesignator_beq (rDesignator (rs_rw v7)) Rw_LEFT)) (
    chk 427 (let! v8 := deref v5 in Ok (RsType_beq (rs_tp v8) Rs_RUNWAY_SNOCLO)) (
    step 429 ((RunwayStateGroup_parse "R21C/SNOCLO" RP_METAR md_default)) (fun v9 => 
    chk 430 (Ok (has_value v9)) (
    chk 431 (let! v10 := deref v9 in Ok (N.eqb (rNumber (rs_rw v10)) 21%N)) (
    chk 432 (let! v11 := deref v9 in Ok (RwDesignator_beq (rDesignator (rs_rw v11)) Rw_CENTER)) (
    chk 433 (let! v12 := deref v9 in Ok (RsType_beq (rs_tp v12) Rs_RUNWAY_SNOCLO)) (
    None))))))))))))))).

Definition t_RunwayStateGroup_parseSnocloRunwayWrongReportPart : option N :=
    chk 437 (let! v1 := (RunwayStateGroup_parse "R21/SNOCLO" RP_UNKNOWN md_default) in Ok (negb (has_value v1))) (
    chk 438 (let! v2 := (RunwayStateGroup_parse "R21/SNOCLO" RP_HEADER md_default) in Ok (negb (has_value v2))) (
    chk 439 (let! v3 := (RunwayStateGroup_parse "R21/SNOCLO" RP_TAF md_default) in Ok (negb (has_value v3))) (
    chk 440 (let! v4 := (RunwayStateGroup_parse "R21/SNOCLO" RP_RMK md_default) in Ok (negb (has_value v4))) (
    None)))).

Definition t_RunwayStateGroup_parseSnocloRunwayWrongFormat : option N :=
    chk 444 (let! v1 := (RunwayStateGroup_parse "R21VSNOCLO" RP_METAR md_default) in Ok (negb (has_value v1))) (
    chk 445 (let! v2 := (RunwayStateGroup_parse "R1/SNOCLO" RP_METAR md_default) in Ok (negb (has_value v2))) (
    chk 446 (let! v3 := (RunwayStateGroup_parse "R112/SNOCLO" RP_METAR md_default) in Ok (negb (has_value v3))) (
    chk 447 (let! v4 := (RunwayStateGroup_parse "R1A/SNOCLO" RP_METAR md_default) in Ok (negb (has_value v4))) (
    chk 448 (let! v5 := (RunwayStateGroup_parse "R21Z/SNOCLO" RP_METAR md_default) in Ok (negb (has_value v5))) (
    chk 449 (let! v6 := (RunwayStateGroup_parse "R21/SNOCLOO" RP_METAR md_default) in Ok (negb (has_value v6))) (
    chk 450 (let! v7 := (RunwayStateGroup_parse "R21/SNOCL" RP_METAR md_default) in Ok (negb (has_value v7))) (
    None))))))).

Definition t_RunwayStateGroup_parseSnocloAerodrome : option N :=
    step 460 ((RunwayStateGroup_parse "SNOCLO" RP_METAR md_default)) (fun v1 => 
    chk 461 (Ok (has_value v1)) (
    chk 462 (let! v2 := deref v1 in Ok (RsType_beq (rs_tp v2) Rs_AERODROME_SNOCLO)) (
    chk 463 (let! v3 := deref v1 in Ok (Runway_isAllRunways (rs_rw v3))) (
    step 465 ((RunwayStateGroup_parse "R/SNOCLO" RP_METAR md_default)) (fun v4 => 
    chk 466 (Ok (has_value v4)) (
    chk 467 (let! v5 := deref v4 in Ok (RsType_beq (rs_tp v5) Rs_AERODROME_SNOCLO)) (
    chk 468 (let! v6 := deref v4 in Ok (Runway_isAllRunways (rs_rw v6))) (
    None)))))))).

Definition t_RunwayStateGroup_parseSnocloAerodromeWrongReportPart : option N :=
    chk 472 (let! v1 := (RunwayStateGroup_parse "SNOCLO" RP_UNKNOWN md_default) in Ok (negb (has_value v1))) (
    chk 474 (let! v2 := (RunwayStateGroup_parse "SNOCLO" RP_HEADER md_default) in Ok (negb (has_value v2))) (
    chk 476 (let! v3 := (RunwayStateGroup_parse "SNOCLO" RP_TAF md_default) in Ok (negb (has_value v3))) (
    chk 478 (let! v4 := (RunwayStateGroup_parse "SNOCLO" RP_RMK md_default) in Ok (negb (has_value v4))) (
    chk 481 (let! v5 := (RunwayStateGroup_parse "R_SNOCLO" RP_UNKNOWN md_default) in Ok (negb (has_value v5))) (
    chk 483 (let! v6 := (RunwayStateGroup_parse "R_SNOCLO" RP_HEADER md_default) in Ok (negb (has_value v6))) (
    chk 485 (let! v7 := (RunwayStateGroup_parse "R_SNOCLO" RP_TAF md_default) in Ok (negb (has_value v7))) (
    chk 487 (let! v8 := (RunwayStateGroup_parse "R_SNOCLO" RP_RMK md_default) in Ok (negb (has_value v8))) (
    None)))))))).

Definition t_RunwayStateGroup_isValidRunwayTrue : option N :=
    step 497 ((RunwayStateGroup_parse "R88/290155" RP_METAR md_default)) (fun v1 => 
    chk 498 (Ok (has_value v1)) (
    chk 499 (let! v2 := deref v1 in Ok (Runway_isValid (rs_rw v2))) (
    chk 500 (let! v3 := deref v1 in Ok (RunwayStateGroup_isValid v3)) (
    step 502 ((RunwayStateGroup_parse "R99/290155" RP_METAR md_default)) (fun v4 => 
    chk 503 (Ok (has_value v4)) (
    chk 504 (let! v5 := deref v4 in Ok (Runway_isValid (rs_rw v5))) (
    chk 505 (let! v6 := deref v4 in Ok (RunwayStateGroup_isValid v6)) (
    step 507 ((RunwayStateGroup_parse "R36/290155" RP_METAR md_default)) (fun v7 => 
    chk 508 (Ok (has_value v7)) (
    chk 509 (let! v8 := deref v7 in Ok (Runway_isValid (rs_rw v8))) (
    chk 510 (let! v9 := deref v7 in Ok (RunwayStateGroup_isValid v9)) (
    step 512 ((RunwayStateGroup_parse "R06L/290155" RP_METAR md_default)) (fun v10 => 
    chk 513 (Ok (has_value v10)) (
    chk 514 (let! v11 := deref v10 in Ok (Runway_isValid (rs_rw v11))) (
    chk 515 (let! v12 := deref v10 in Ok (RunwayStateGroup_isValid v12)) (
    None)))))))))))))))).

Definition t_RunwayStateGroup_isValidRunwayFalse : option N :=
    step 519 ((RunwayStateGroup_parse "R88R/290155" RP_METAR md_default)) (fun v1 => 
    chk 520 (Ok (has_value v1)) (
    chk 521 (let! v2 := deref v1 in Ok (negb (Runway_isValid (rs_rw v2)))) (
    chk 522 (let! v3 := deref v1 in Ok (negb (RunwayStateGroup_isValid v3))) (
    step 524 ((RunwayStateGroup_parse "R99C/290155" RP_METAR md_default)) (fun v4 => 
    chk 525 (Ok (has_value v4)) (
    chk 526 (let! v5 := deref v4 in Ok (negb (Runway_isValid (rs_rw v5)))) (
    chk 527 (let! v6 := deref v4 in Ok (negb (RunwayStateGroup_isValid v6))) (
    step 529 ((RunwayStateGroup_parse "R37/290155" RP_METAR md_default)) (fun v7 => 
    chk 530 (Ok (has_value v7)) (
    chk 531 (let! v8 := deref v7 in Ok (negb (Runway_isValid (rs_rw v8)))) (
    chk 532 (let! v9 := deref v7 in Ok (negb (RunwayStateGroup_isValid v9))) (
    None)))))))))))).

Definition t_RunwayStateGroup_isValidExtentTrue : option N :=
    step 536 ((RunwayStateGroup_parse "R88/00//55" RP_METAR md_default)) (fun v1 => 
    chk 537 (Ok (has_value v1)) (
    chk 538 (let! v2 := deref v1 in Ok (Runway_isValid (rs_rw v2))) (
    chk 539 (let! v3 := deref v1 in Ok (RunwayStateGroup_isValid v3)) (
    step 541 ((RunwayStateGroup_parse "R88/210155" RP_METAR md_default)) (fun v4 => 
    chk 542 (Ok (has_value v4)) (
    chk 543 (let! v5 := deref v4 in Ok (Runway_isValid (rs_rw v5))) (
    chk 544 (let! v6 := deref v4 in Ok (RunwayStateGroup_isValid v6)) (
    step 546 ((RunwayStateGroup_parse "R88/220155" RP_METAR md_default)) (fun v7 => 
    chk 547 (Ok (has_value v7)) (
    chk 548 (let! v8 := deref v7 in Ok (Runway_isValid (rs_rw v8))) (
    chk 549 (let! v9 := deref v7 in Ok (RunwayStateGroup_isValid v9)) (
    step 551 ((RunwayStateGroup_parse "R88/250155" RP_METAR md_default)) (fun v10 => 
    chk 552 (Ok (has_value v10)) (
    chk 553 (let! v11 := deref v10 in Ok (Runway_isValid (rs_rw v11))) (
    chk 554 (let! v12 := deref v10 in Ok (RunwayStateGroup_isValid v12)) (
    step 556 ((RunwayStateGroup_parse "R88/290155" RP_METAR md_default)) (fun v13 => 
    chk 557 (Ok (has_value v13)) (
    chk 558 (let! v14 := deref v13 in Ok (Runway_isValid (rs_rw v14))) (
    chk 559 (let! v15 := deref v13 in Ok (RunwayStateGroup_isValid v15)) (
    step 561 ((RunwayStateGroup_parse "R88/2/0155" RP_METAR md_default)) (fun v16 => 
    chk 562 (Ok (has_value v16)) (
    chk 563 (let! v17 := deref v16 in Ok (Runway_isValid (rs_rw v17))) (
    chk 564 (let! v18 := deref v16 in Ok (RunwayStateGroup_isValid v18)) (
    None)))))))))))))))))))))))).

Definition t_RunwayStateGroup_isValidExtentFalse : option N :=
    step 568 ((RunwayStateGroup_parse "R88/230155" RP_METAR md_default)) (fun v1 => 
    chk 569 (Ok (has_value v1)) (
    chk 570 (let! v2 := deref v1 in Ok (Runway_isValid (rs_rw v2))) (
    chk 571 (let! v3 := deref v1 in Ok (negb (RunwayStateGroup_isValid v3))) (
    step 573 ((RunwayStateGroup_parse "R88/240155" RP_METAR md_default)) (fun v4 => 
    chk 574 (Ok (has_value v4)) (
    chk 575 (let! v5 := deref v4 in Ok (Runway_isValid (rs_rw v5))) (
    chk 576 (let! v6 := deref v4 in Ok (negb (RunwayStateGroup_isValid v6))) (
    step 578 ((RunwayStateGroup_parse "R88/260155" RP_METAR md_default)) (fun v7 => 
    chk 579 (Ok (has_value v7)) (
    chk 580 (let! v8 := deref v7 in Ok (Runway_isValid (rs_rw v8))) (
    chk 581 (let! v9 := deref v7 in Ok (negb (RunwayStateGroup_isValid v9))) (
    step 583 ((RunwayStateGroup_parse "R88/270155" RP_METAR md_default)) (fun v10 => 
    chk 584 (Ok (has_value v10)) (
    chk 585 (let! v11 := deref v10 in Ok (Runway_isValid (rs_rw v11))) (
    chk 586 (let! v12 := deref v10 in Ok (negb (RunwayStateGroup_isValid v12))) (
    step 588 ((RunwayStateGroup_parse "R88/280155" RP_METAR md_default)) (fun v13 => 
    chk 589 (Ok (has_value v13)) (
    chk 590 (let! v14 := deref v13 in Ok (Runway_isValid (rs_rw v14))) (
    chk 591 (let! v15 := deref v13 in Ok (negb (RunwayStateGroup_isValid v15))) (
    None)))))))))))))))))))).

Definition t_RunwayStateGroup_append : option N :=
    step 607 ((RunwayStateGroup_parse "R16/710155" RP_METAR md_default)) (fun v1 => 
    chk 608 (Ok (has_value v1)) (
    step 610 ((RunwayStateGroup_parse "R21R/CLRD70" RP_METAR md_default)) (fun v2 => 
    chk 611 (Ok (has_value v2)) (
    step 613 ((RunwayStateGroup_parse "R21/SNOCLO" RP_METAR md_default)) (fun v3 => 
    chk 614 (Ok (has_value v3)) (
    step 616 ((RunwayStateGroup_parse "R21///////" RP_METAR md_default)) (fun v4 => 
    chk 617 (Ok (has_value v4)) (
    step 619 (let! v5 := deref v1 in RunwayStateGroup_append v5 "R16/710155" RP_METAR md_default) (fun p => let v6 := Some (fst p) in let v7 := snd p in 
    chk 619 (Ok (AppendResult_beq v7 NOT_APPENDED)) (
    step 621 (let! v8 := deref v6 in RunwayStateGroup_append v8 "R21R/CLRD70" RP_METAR md_default) (fun p => let v9 := Some (fst p) in let v10 := snd p in 
    chk 621 (Ok (AppendResult_beq v10 NOT_APPENDED)) (
    step 623 (let! v11 := deref v9 in RunwayStateGroup_append v11 "R21/SNOCLO" RP_METAR md_default) (fun p => let v12 := Some (fst p) in let v13 := snd p in 
    chk 623 (Ok (AppendResult_beq v13 NOT_APPENDED)) (
    step 625 (let! v14 := deref v12 in RunwayStateGroup_append v14 "R21///////" RP_METAR md_default) (fun p => let v15 := Some (fst p) in let v16 := snd p in 
    chk 625 (Ok (AppendResult_beq v16 NOT_APPENDED)) (
    step 627 (let! v17 := deref v15 in RunwayStateGroup_append v17 "RMK" RP_METAR md_default) (fun p => let v18 := Some (fst p) in let v19 := snd p in 
    chk 627 (Ok (AppendResult_beq v19 NOT_APPENDED)) (
    step 629 (let! v20 := deref v18 in RunwayStateGroup_append v20 "TEST" RP_METAR md_default) (fun p => let v21 := Some (fst p) in let v22 := snd p in 
    chk 629 (Ok (AppendResult_beq v22 NOT_APPENDED)) (
    step 632 (let! v23 := deref v2 in RunwayStateGroup_append v23 "R16/710155" RP_METAR md_default) (fun p => let v24 := Some (fst p) in let v25 := snd p in 
    chk 632 (Ok (AppendResult_beq v25 NOT_APPENDED)) (
    step 634 (let! v26 := deref v24 in RunwayStateGroup_append v26 "R21R/CLRD70" RP_METAR md_default) (fun p => let v27 := Some (fst p) in let v28 := snd p in 
    chk 634 (Ok (AppendResult_beq v28 NOT_APPENDED)) (
    step 636 (let! v29 := deref v27 in RunwayStateGroup_append v29 "R21/SNOCLO" RP_METAR md_default) (fun p => let v30 := Some (fst p) in let v31 := snd p in 
    chk 636 (Ok (AppendResult_beq v31 NOT_APPENDED)) (
    step 638 (let! v32 := deref v30 in RunwayStateGroup_append v32 "R21///////" RP_METAR md_default) (fun p => let v33 := Some (fst p) in let v34 := snd p in 
    chk 638 (Ok (AppendResult_beq v34 NOT_APPENDED)) (
    step 640 (let! v35 := deref v33 in RunwayStateGroup_append v35 "RMK" RP_METAR md_default) (fun p => let v36 := Some (fst p) in let v37 := snd p in 
    chk 640 (Ok (AppendResult_beq v37 NOT_APPENDED)) (
    step 642 (let! v38 := deref v36 in RunwayStateGroup_append v38 "TEST" RP_METAR md_default) (fun p => let v39 := Some (fst p) in let v40 := snd p in 
    chk 642 (Ok (AppendResult_beq v40 NOT_APPENDED)) (
    step 645 (let! v41 := deref v3 in RunwayStateGroup_append v41 "R16/710155" RP_METAR md_default) (fun p => let v42 := Some (fst p) in let v43 := snd p in 
    chk 645 (Ok (AppendResult_beq v43 NOT_APPENDED)) (
    step 647 (let! v44 := deref v42 in RunwayStateGroup_append v44 "R21R/CLRD70" RP_METAR md_default) (fun p => let v45 := Some (fst p) in let v46 := snd p in 
    chk 647 (Ok (AppendResult_beq v46 NOT_APPENDED)) (
    step 649 (let! v47 := deref v45 in RunwayStateGroup_append v47 "R21/SNOCLO" RP_METAR md_default) (fun p => let v48 := Some (fst p) in let v49 := snd p in 
    chk 649 (Ok (AppendResult_beq v49 NOT_APPENDED)) (
    step 651 (let! v50 := deref v48 in RunwayStateGroup_append v50 "R21///////" RP_METAR md_default) (fun p => let v51 := Some (fst p) in let v52 := snd p in 
    chk 651 (Ok (AppendResult_beq v52 NOT_APPENDED)) (
    step 653 (let! v53 := deref v51 in RunwayStateGroup_append v53 "RMK" RP_METAR md_default) (fun p => let v54 := Some (fst p) in let v55 := snd p in 
    chk 653 (Ok (AppendResult_beq v55 NOT_APPENDED)) (
    step 655 (let! v56 := deref v54 in RunwayStateGroup_append v56 "TEST" RP_METAR md_default) (fun p => let v57 := Some (fst p) in let v58 := snd p in 
    chk 655 (Ok (AppendResult_beq v58 NOT_APPENDED)) (
    step 658 (let! v59 := deref v4 in RunwayStateGroup_append v59 "R16/710155" RP_METAR md_default) (fun p => let v60 := Some (fst p) in let v61 := snd p in 
    chk 658 (Ok (AppendResult_beq v61 NOT_APPENDED)) (
    step 660 (let! v62 := deref v60 in RunwayStateGroup_append v62 "R21R/CLRD70" RP_METAR md_default) (fun p => let v63 := Some (fst p) in let v64 := snd p in 
    chk 660 (Ok (AppendResult_beq v64 NOT_APPENDED)) (
    step 662 (let! v65 := deref v63 in RunwayStateGroup_append v65 "R21/SNOCLO" RP_METAR md_default) (fun p => let v66 := Some (fst p) in let v67 := snd p in 
    chk 662 (Ok (AppendResult_beq v67 NOT_APPENDED)) (
    step 664 (let! v68 := deref v66 in RunwayStateGroup_append v68 "R21///////" RP_METAR md_default) (fun p => let v69 := Some (fst p) in let v70 := snd p in 
    chk 664 (Ok (AppendResult_beq v70 NOT_APPENDED)) (
    step 666 (let! v71 := deref v69 in RunwayStateGroup_append v71 "RMK" RP_METAR md_default) (fun p => let v72 := Some (fst p) in let v73 := snd p in 
    chk 666 (Ok (AppendResult_beq v73 NOT_APPENDED)) (
    step 668 (let! v74 := deref v72 in RunwayStateGroup_append v74 "TEST" RP_METAR md_default) (fun p => let v75 := Some (fst p) in let v76 := snd p in 
    chk 668 (Ok (AppendResult_beq v76 NOT_APPENDED)) (
    None)))))))))))))))))))))))))))))))))))))))))))))))))))))))).

Example tests_runwaystategroup_pass : failures
  [("RunwayStateGroup_parseRwState", t_RunwayStateGroup_parseRwState);
   ("RunwayStateGroup_parseRwStateRunwayWithDesignator", t_RunwayStateGroup_parseRwStateRunwayWithDesignator);
   ("RunwayStateGroup_parseRwStateRunwayNotOperational", t_RunwayStateGroup_parseRwStateRunwayNotOperational);
   ("RunwayStateGroup_parseRwStateDepositDepthNotReported", t_RunwayStateGroup_parseRwStateDepositDepthNotReported);
   ("RunwayStateGroup_parseRwStateSurfaceFrictionNotReported", t_RunwayStateGroup_parseRwStateSurfaceFrictionNotReported);
   ("RunwayStateGroup_parseRwStateDepositValues", t_RunwayStateGroup_parseRwStateDepositValues);
   ("RunwayStateGroup_parseRwStateDepositsNotReported", t_RunwayStateGroup_parseRwStateDepositsNotReported);
   ("RunwayStateGroup_parseRwStateExtentValues", t_RunwayStateGroup_parseRwStateExtentValues);
   ("RunwayStateGroup_parseRwStateExtentNotReported", t_RunwayStateGroup_parseRwStateExtentNotReported);
   ("RunwayStateGroup_parseRwStateAllNotReported", t_RunwayStateGroup_parseRwStateAllNotReported);
   ("RunwayStateGroup_parseRwStateWrongReportPart", t_RunwayStateGroup_parseRwStateWrongReportPart);
   ("RunwayStateGroup_parseRwStateWrongFormat", t_RunwayStateGroup_parseRwStateWrongFormat);
   ("RunwayStateGroup_parseClrdSurfaceFrictionReported", t_RunwayStateGroup_parseClrdSurfaceFrictionReported);
   ("RunwayStateGroup_parseClrdSurfaceFrictionNotReported", t_RunwayStateGroup_parseClrdSurfaceFrictionNotReported);
   ("RunwayStateGroup_parseClrdRunwayWithDesignator", t_RunwayStateGroup_parseClrdRunwayWithDesignator);
   ("RunwayStateGroup_parseClrdWrongReportPart", t_RunwayStateGroup_parseClrdWrongReportPart);
   ("RunwayStateGroup_parseClrdWrongFormat", t_RunwayStateGroup_parseClrdWrongFormat);
   ("RunwayStateGroup_parseClrdAvcSurfaceFrictionReported", t_RunwayStateGroup_parseClrdAvcSurfaceFrictionReported);
   ("RunwayStateGroup_parseClrdAvcSurfaceFrictionMissing", t_RunwayStateGroup_parseClrdAvcSurfaceFrictionMissing);
   ("RunwayStateGroup_parseClrdAvcRunwayWithDesignator", t_RunwayStateGroup_parseClrdAvcRunwayWithDesignator);
   ("RunwayStateGroup_parseClrdAvcWrongReportPart", t_RunwayStateGroup_parseClrdAvcWrongReportPart);
   ("RunwayStateGroup_parseClrdAvcWrongFormat", t_RunwayStateGroup_parseClrdAvcWrongFormat);
   ("RunwayStateGroup_parseSnocloRunway", t_RunwayStateGroup_parseSnocloRunway);
   ("RunwayStateGroup_parseSnocloRunwayWithDesignator", t_RunwayStateGroup_parseSnocloRunwayWithDesignator);
   ("RunwayStateGroup_parseSnocloRunwayWrongReportPart", t_RunwayStateGroup_parseSnocloRunwayWrongReportPart);
   ("RunwayStateGroup_parseSnocloRunwayWrongFormat", t_RunwayStateGroup_parseSnocloRunwayWrongFormat);
   ("RunwayStateGroup_parseSnocloAerodrome", t_RunwayStateGroup_parseSnocloAerodrome);
   ("RunwayStateGroup_parseSnocloAerodromeWrongReportPart", t_RunwayStateGroup_parseSnocloAerodromeWrongReportPart);
   ("RunwayStateGroup_isValidRunwayTrue", t_RunwayStateGroup_isValidRunwayTrue);
   ("RunwayStateGroup_isValidRunwayFalse", t_RunwayStateGroup_isValidRunwayFalse);
   ("RunwayStateGroup_isValidExtentTrue", t_RunwayStateGroup_isValidExtentTrue);
   ("RunwayStateGroup_isValidExtentFalse", t_RunwayStateGroup_isValidExtentFalse);
   ("RunwayStateGroup_append", t_RunwayStateGroup_append)] = [].
Proof. vm_compute. reflexivity. Qed.
