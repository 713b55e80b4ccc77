(** Generated by tools/gen_tests.py from /repo/test/test_visibilitygroup.cpp: the project's own unit tests, run
    against the model. These are tests of the model's fidelity, not properties. *)

From Verif Require Import Prim Regex Float Values Weather Groups1 Groups2 Groups3 Groups4 Parser TestLib.
Local Open Scope string_scope.
Local Open Scope bool_scope.

Definition t_VisibilityGroup_parseMetersMetar : option N :=
    step 22 ((VisibilityGroup_parse "1600" RP_METAR md_default)) (fun v1 => 
    chk 23 (Ok (has_value v1)) (
    chk 24 (let! v2 := deref v1 in Ok (ViType_beq (vi_type v2) Vi_PREVAILING)) (
    chk 25 (let! v3 := deref v1 in Ok (Distance_isReported (VisibilityGroup_visibility v3))) (
    chk 26 (let! v4 := deref v1 in Ok (DistModifier_beq (distModifier (VisibilityGroup_visibility v4)) DM_NONE)) (
    chk 27 (let! v5 := deref v1 in Ok (has_value (Distance_distance (VisibilityGroup_visibility v5)))) (
    chk 28 (let! v6 := deref v1 in let! v7 := deref (Distance_distance (VisibilityGroup_visibility v6)) in Ok (near v7 (dlit (1600) 1) (dlit (1) 200))) (
    chk 29 (let! v8 := deref v1 in Ok (DistUnit_beq (distUnit (VisibilityGroup_visibility v8)) METERS)) (
    chk 30 (let! v9 := deref v1 in Ok (negb (has_value (vi_dir v9)))) (
    chk 31 (let! v10 := deref v1 in Ok (negb (has_value (vi_rw v10)))) (
    chk 32 (let! v11 := deref v1 in Ok (negb (Distance_isReported (VisibilityGroup_minVisibility v11)))) (
    chk 33 (let! v12 := deref v1 in Ok (negb (Distance_isReported (VisibilityGroup_maxVisibility v12)))) (
    chk 34 (let! v13 := deref v1 in let! v14 := (VisibilityGroup_sectorDirections v13) in Ok (N.eqb (N.of_nat (List.length v14)) 0%N)) (
    chk 35 (let! v15 := deref v1 in Ok (ViTrend_beq (vi_trend v15) Vt_NONE)) (
    chk 36 (let! v16 := deref v1 in Ok (VisibilityGroup_isValid v16)) (
    None))))))))))))))).

Definition t_VisibilityGroup_parseMetersTaf : option N :=
    step 40 ((VisibilityGroup_parse "1600" RP_TAF md_default)) (fun v1 => 
    chk 41 (Ok (has_value v1)) (
    chk 42 (let! v2 := deref v1 in Ok (ViType_beq (vi_type v2) Vi_PREVAILING)) (
    chk 43 (let! v3 := deref v1 in Ok (Distance_isReported (VisibilityGroup_visibility v3))) (
    chk 44 (let! v4 := deref v1 in Ok (DistModifier_beq (distModifier (VisibilityGroup_visibility v4)) DM_NONE)) (
    chk 45 (let! v5 := deref v1 in Ok (has_value (Distance_distance (VisibilityGroup_visibility v5)))) (
    chk 46 (let! v6 := deref v1 in let! v7 := deref (Distance_distance (VisibilityGroup_visibility v6)) in Ok (near v7 (dlit (1600) 1) (dlit (1) 200))) (
    chk 47 (let! v8 := deref v1 in Ok (DistUnit_beq (distUnit (VisibilityGroup_visibility v8)) METERS)) (
    chk 48 (let! v9 := deref v1 in Ok (negb (has_value (vi_dir v9)))) (
    chk 49 (let! v10 := deref v1 in Ok (negb (has_value (vi_rw v10)))) (
    chk 50 (let! v11 := deref v1 in Ok (negb (Distance_isReported (VisibilityGroup_minVisibility v11)))) (
    chk 51 (let! v12 := deref v1 in Ok (negb (Distance_isReported (VisibilityGroup_maxVisibility v12)))) (
    chk 52 (let! v13 := deref v1 in let! v14 := (VisibilityGroup_sectorDirections v13) in Ok (N.eqb (N.of_nat (List.length v14)) 0%N)) (
    chk 53 (let! v15 := deref v1 in Ok (ViTrend_beq (vi_trend v15) Vt_NONE)) (
    chk 54 (let! v16 := deref v1 in Ok (VisibilityGroup_isValid v16)) (
    None))))))))))))))).

Definition t_VisibilityGroup_parseMetersNDV : option N :=
    step 58 ((VisibilityGroup_parse "9999NDV" RP_METAR md_default)) (fun v1 => 
    chk 59 (Ok (has_value v1)) (
    chk 60 (let! v2 := deref v1 in Ok (ViType_beq (vi_type v2) Vi_PREVAILING_NDV)) (
    chk 61 (let! v3 := deref v1 in Ok (Distance_isReported (VisibilityGroup_visibility v3))) (
    chk 62 (let! v4 := deref v1 in Ok (DistModifier_beq (distModifier (VisibilityGroup_visibility v4)) DM_MORE_THAN)) (
    chk 63 (let! v5 := deref v1 in Ok (has_value (Distance_distance (VisibilityGroup_visibility v5)))) (
    chk 64 (let! v6 := deref v1 in let! v7 := deref (Distance_distance (VisibilityGroup_visibility v6)) in Ok (near v7 (dlit (10000) 1) (dlit (1) 200))) (
    chk 65 (let! v8 := deref v1 in Ok (DistUnit_beq (distUnit (VisibilityGroup_visibility v8)) METERS)) (
    chk 66 (let! v9 := deref v1 in Ok (has_value (vi_dir v9))) (
    chk 67 (let! v10 := deref v1 in let! v11 := deref (vi_dir v10) in Ok (DirType_beq (dirType v11) DT_NDV)) (
    chk 68 (let! v12 := deref v1 in Ok (negb (has_value (vi_rw v12)))) (
    chk 69 (let! v13 := deref v1 in Ok (negb (Distance_isReported (VisibilityGroup_minVisibility v13)))) (
    chk 70 (let! v14 := deref v1 in Ok (negb (Distance_isReported (VisibilityGroup_maxVisibility v14)))) (
    chk 71 (let! v15 := deref v1 in let! v16 := (VisibilityGroup_sectorDirections v15) in Ok (N.eqb (N.of_nat (List.length v16)) 0%N)) (
    chk 72 (let! v17 := deref v1 in Ok (ViTrend_beq (vi_trend v17) Vt_NONE)) (
    chk 73 (let! v18 := deref v1 in Ok (VisibilityGroup_isValid v18)) (
    None)))))))))))))))).

Definition t_VisibilityGroup_parseMetersDirectionNorth : option N :=
    step 77 ((VisibilityGroup_parse "1600N" RP_METAR md_default)) (fun v1 => 
    chk 78 (Ok (has_value v1)) (
    chk 79 (let! v2 := deref v1 in Ok (ViType_beq (vi_type v2) Vi_DIRECTIONAL)) (
    chk 80 (let! v3 := deref v1 in Ok (DistModifier_beq (distModifier (VisibilityGroup_visibility v3)) DM_NONE)) (
    chk 81 (let! v4 := deref v1 in Ok (has_value (Distance_distance (VisibilityGroup_visibility v4)))) (
    chk 82 (let! v5 := deref v1 in let! v6 := deref (Distance_distance (VisibilityGroup_visibility v5)) in Ok (near v6 (dlit (1600) 1) (dlit (1) 200))) (
    chk 83 (let! v7 := deref v1 in Ok (DistUnit_beq (distUnit (VisibilityGroup_visibility v7)) METERS)) (
    chk 84 (let! v8 := deref v1 in Ok (has_value (vi_dir v8))) (
    chk 85 (let! v9 := deref v1 in let! v10 := deref (vi_dir v9) in Ok (DirType_beq (dirType v10) DT_VALUE_CARDINAL)) (
    chk 86 (let! v11 := deref v1 in let! v12 := deref (vi_dir v11) in Ok (Cardinal_beq (Direction_cardinal v12 false) Cd_N)) (
    chk 87 (let! v13 := deref v1 in Ok (negb (has_value (vi_rw v13)))) (
    chk 88 (let! v14 := deref v1 in Ok (negb (Distance_isReported (VisibilityGroup_minVisibility v14)))) (
    chk 89 (let! v15 := deref v1 in Ok (negb (Distance_isReported (VisibilityGroup_maxVisibility v15)))) (
    chk 90 (let! v16 := deref v1 in let! v17 := (VisibilityGroup_sectorDirections v16) in Ok (N.eqb (N.of_nat (List.length v17)) 0%N)) (
    chk 91 (let! v18 := deref v1 in Ok (ViTrend_beq (vi_trend v18) Vt_NONE)) (
    chk 92 (let! v19 := deref v1 in Ok (VisibilityGroup_isValid v19)) (
    None)))))))))))))))).

Definition t_VisibilityGroup_parseMetersDirectionSouth : option N :=
    step 96 ((VisibilityGroup_parse "1600S" RP_METAR md_default)) (fun v1 => 
    chk 97 (Ok (has_value v1)) (
    chk 98 (let! v2 := deref v1 in Ok (ViType_beq (vi_type v2) Vi_DIRECTIONAL)) (
    chk 99 (let! v3 := deref v1 in Ok (DistModifier_beq (distModifier (VisibilityGroup_visibility v3)) DM_NONE)) (
    chk 100 (let! v4 := deref v1 in Ok (has_value (Distance_distance (VisibilityGroup_visibility v4)))) (
    chk 101 (let! v5 := deref v1 in let! v6 := deref (Distance_distance (VisibilityGroup_visibility v5)) in Ok (near v6 (dlit (1600) 1) (dlit (1) 200))) (
    chk 102 (let! v7 := deref v1 in Ok (DistUnit_beq (distUnit (VisibilityGroup_visibility v7)) METERS)) (
    chk 103 (let! v8 := deref v1 in Ok (has_value (vi_dir v8))) (
    chk 104 (let! v9 := deref v1 in let! v10 := deref (vi_dir v9) in Ok (DirType_beq (dirType v10) DT_VALUE_CARDINAL)) (
    chk 105 (let! v11 := deref v1 in let! v12 := deref (vi_dir v11) in Ok (Cardinal_beq (Direction_cardinal v12 false) Cd_S)) (
    chk 106 (let! v13 := deref v1 in Ok (negb (has_value (vi_rw v13)))) (
    chk 107 (let! v14 := deref v1 in Ok (negb (Distance_isReported (VisibilityGroup_minVisibility v14)))) (
    chk 108 (let! v15 := deref v1 in Ok (negb (Distance_isReported (VisibilityGroup_maxVisibility v15)))) (
    chk 109 (let! v16 := deref v1 in let! v17 := (VisibilityGroup_sectorDirections v16) in Ok (N.eqb (N.of_nat (List.length v17)) 0%N)) (
    chk 110 (let! v18 := deref v1 in Ok (ViTrend_beq (vi_trend v18) Vt_NONE)) (
    chk 111 (let! v19 := deref v1 in Ok (VisibilityGroup_isValid v19)) (
    None)))))))))))))))).

Definition t_VisibilityGroup_parseMetersDirectionWest : option N :=
    step 115 ((VisibilityGroup_parse "1600W" RP_METAR md_default)) (fun v1 => 
    chk 116 (Ok (has_value v1)) (
    chk 117 (let! v2 := deref v1 in Ok (ViType_beq (vi_type v2) Vi_DIRECTIONAL)) (
    chk 118 (let! v3 := deref v1 in Ok (DistModifier_beq (distModifier (VisibilityGroup_visibility v3)) DM_NONE)) (
    chk 119 (let! v4 := deref v1 in Ok (has_value (Distance_distance (VisibilityGroup_visibility v4)))) (
    chk 120 (let! v5 := deref v1 in let! v6 := deref (Distance_distance (VisibilityGroup_visibility v5)) in Ok (near v6 (dlit (1600) 1) (dlit (1) 200))) (
    chk 121 (let! v7 := deref v1 in Ok (DistUnit_beq (distUnit (VisibilityGroup_visibility v7)) METERS)) (
    chk 122 (let! v8 := deref v1 in Ok (has_value (vi_dir v8))) (
    chk 123 (let! v9 := deref v1 in let! v10 := deref (vi_dir v9) in Ok (DirType_beq (dirType v10) DT_VALUE_CARDINAL)) (
    chk 124 (let! v11 := deref v1 in let! v12 := deref (vi_dir v11) in Ok (Cardinal_beq (Direction_cardinal v12 false) Cd_W)) (
    chk 125 (let! v13 := deref v1 in Ok (negb (has_value (vi_rw v13)))) (
    chk 126 (let! v14 := deref v1 in Ok (negb (Distance_isReported (VisibilityGroup_minVisibility v14)))) (
    chk 127 (let! v15 := deref v1 in Ok (negb (Distance_isReported (VisibilityGroup_maxVisibility v15)))) (
    chk 128 (let! v16 := deref v1 in let! v17 := (VisibilityGroup_sectorDirections v16) in Ok (N.eqb (N.of_nat (List.length v17)) 0%N)) (
    chk 129 (let! v18 := deref v1 in Ok (ViTrend_beq (vi_trend v18) Vt_NONE)) (
    chk 130 (let! v19 := deref v1 in Ok (VisibilityGroup_isValid v19)) (
    None)))))))))))))))).

Definition t_VisibilityGroup_parseMetersDirectionEast : option N :=
    step 134 ((VisibilityGroup_parse "1600E" RP_METAR md_default)) (fun v1 => 
    chk 135 (Ok (has_value v1)) (
    chk 136 (let! v2 := deref v1 in Ok (ViType_beq (vi_type v2) Vi_DIRECTIONAL)) (
    chk 137 (let! v3 := deref v1 in Ok (DistModifier_beq (distModifier (VisibilityGroup_visibility v3)) DM_NONE)) (
    chk 138 (let! v4 := deref v1 in Ok (has_value (Distance_distance (VisibilityGroup_visibility v4)))) (
    chk 139 (let! v5 := deref v1 in let! v6 := deref (Distance_distance (VisibilityGroup_visibility v5)) in Ok (near v6 (dlit (1600) 1) (dlit (1) 200))) (
    chk 140 (let! v7 := deref v1 in Ok (DistUnit_beq (distUnit (VisibilityGroup_visibility v7)) METERS)) (
    chk 141 (let! v8 := deref v1 in Ok (has_value (vi_dir v8))) (
    chk 142 (let! v9 := deref v1 in let! v10 := deref (vi_dir v9) in Ok (DirType_beq (dirType v10) DT_VALUE_CARDINAL)) (
    chk 143 (let! v11 := deref v1 in let! v12 := deref (vi_dir v11) in Ok (Cardinal_beq (Direction_cardinal v12 false) Cd_E)) (
    chk 144 (let! v13 := deref v1 in Ok (negb (has_value (vi_rw v13)))) (
    chk 145 (let! v14 := deref v1 in Ok (negb (Distance_isReported (VisibilityGroup_minVisibility v14)))) (
    chk 146 (let! v15 := deref v1 in Ok (negb (Distance_isReported (VisibilityGroup_maxVisibility v15)))) (
    chk 147 (let! v16 := deref v1 in let! v17 := (VisibilityGroup_sectorDirections v16) in Ok (N.eqb (N.of_nat (List.length v17)) 0%N)) (
    chk 148 (let! v18 := deref v1 in Ok (ViTrend_beq (vi_trend v18) Vt_NONE)) (
    chk 149 (let! v19 := deref v1 in Ok (VisibilityGroup_isValid v19)) (
    None)))))))))))))))).

Definition t_VisibilityGroup_parseMetersDirectionNorthWest : option N :=
    step 153 ((VisibilityGroup_parse "1600NW" RP_METAR md_default)) (fun v1 => 
    chk 154 (Ok (has_value v1)) (
    chk 155 (let! v2 := deref v1 in Ok (ViType_beq (vi_type v2) Vi_DIRECTIONAL)) (
    chk 156 (let! v3 := deref v1 in Ok (DistModifier_beq (distModifier (VisibilityGroup_visibility v3)) DM_NONE)) (
    chk 157 (let! v4 := deref v1 in Ok (has_value (Distance_distance (VisibilityGroup_visibility v4)))) (
    chk 158 (let! v5 := deref v1 in let! v6 := deref (Distance_distance (VisibilityGroup_visibility v5)) in Ok (near v6 (dlit (1600) 1) (dlit (1) 200))) (
    chk 159 (let! v7 := deref v1 in Ok (DistUnit_beq (distUnit (VisibilityGroup_visibility v7)) METERS)) (
    chk 160 (let! v8 := deref v1 in Ok (has_value (vi_dir v8))) (
    chk 161 (let! v9 := deref v1 in let! v10 := deref (vi_dir v9) in Ok (DirType_beq (dirType v10) DT_VALUE_CARDINAL)) (
    chk 162 (let! v11 := deref v1 in let! v12 := deref (vi_dir v11) in Ok (Cardinal_beq (Direction_cardinal v12 false) Cd_NW)) (
    chk 163 (let! v13 := deref v1 in Ok (negb (has_value (vi_rw v13)))) (
    chk 164 (let! v14 := deref v1 in Ok (negb (Distance_isReported (VisibilityGroup_minVisibility v14)))) (
    chk 165 (let! v15 := deref v1 in Ok (negb (Distance_isReported (VisibilityGroup_maxVisibility v15)))) (
    chk 166 (let! v16 := deref v1 in let! v17 := (VisibilityGroup_sectorDirections v16) in Ok (N.eqb (N.of_nat (List.length v17)) 0%N)) (
    chk 167 (let! v18 := deref v1 in Ok (ViTrend_beq (vi_trend v18) Vt_NONE)) (
    chk 168 (let! v19 := deref v1 in Ok (VisibilityGroup_isValid v19)) (
    None)))))))))))))))).

Definition t_VisibilityGroup_parseMetersDirectionNorthEast : option N :=
    step 172 ((VisibilityGroup_parse "1600NE" RP_METAR md_default)) (fun v1 => 
    chk 173 (Ok (has_value v1)) (
    chk 174 (let! v2 := deref v1 in Ok (ViType_beq (vi_type v2) Vi_DIRECTIONAL)) (
    chk 175 (let! v3 := deref v1 in Ok (DistModifier_beq (distModifier (VisibilityGroup_visibility v3)) DM_NONE)) (
    chk 176 (let! v4 := deref v1 in Ok (has_value (Distance_distance (VisibilityGroup_visibility v4)))) (
    chk 177 (let! v5 := deref v1 in let! v6 := deref (Distance_distance (VisibilityGroup_visibility v5)) in Ok (near v6 (dlit (1600) 1) (dlit (1) 200))) (
    chk 178 (let! v7 := deref v1 in Ok (DistUnit_beq (distUnit (VisibilityGroup_visibility v7)) METERS)) (
    chk 179 (let! v8 := deref v1 in Ok (has_value (vi_dir v8))) (
    chk 180 (let! v9 := deref v1 in let! v10 := deref (vi_dir v9) in Ok (DirType_beq (dirType v10) DT_VALUE_CARDINAL)) (
    chk 181 (let! v11 := deref v1 in let! v12 := deref (vi_dir v11) in Ok (Cardinal_beq (Direction_cardinal v12 false) Cd_NE)) (
    chk 182 (let! v13 := deref v1 in Ok (negb (has_value (vi_rw v13)))) (
    chk 183 (let! v14 := deref v1 in Ok (negb (Distance_isReported (VisibilityGroup_minVisibility v14)))) (
    chk 184 (let! v15 := deref v1 in Ok (negb (Distance_isReported (VisibilityGroup_maxVisibility v15)))) (
    chk 185 (let! v16 := deref v1 in let! v17 := (VisibilityGroup_sectorDirections v16) in Ok (N.eqb (N.of_nat (List.length v17)) 0%N)) (
    chk 186 (let! v18 := deref v1 in Ok (ViTrend_beq (vi_trend v18) Vt_NONE)) (
    chk 187 (let! v19 := deref v1 in Ok (VisibilityGroup_isValid v19)) (
    None)))))))))))))))).

Definition t_VisibilityGroup_parseMetersDirectionSouthWest : option N :=
    step 191 ((VisibilityGroup_parse "1600SW" RP_METAR md_default)) (fun v1 => 
    chk 192 (Ok (has_value v1)) (
    chk 193 (let! v2 := deref v1 in Ok (ViType_beq (vi_type v2) Vi_DIRECTIONAL)) (
    chk 194 (let! v3 := deref v1 in Ok (DistModifier_beq (distModifier (VisibilityGroup_visibility v3)) DM_NONE)) (
    chk 195 (let! v4 := deref v1 in Ok (has_value (Distance_distance (VisibilityGroup_visibility v4)))) (
    chk 196 (let! v5 := deref v1 in let! v6 := deref (Distance_distance (VisibilityGroup_visibility v5)) in Ok (near v6 (dlit (1600) 1) (dlit (1) 200))) (
    chk 197 (let! v7 := deref v1 in Ok (DistUnit_beq (distUnit (VisibilityGroup_visibility v7)) METERS)) (
    chk 198 (let! v8 := deref v1 in Ok (has_value (vi_dir v8))) (
    chk 199 (let! v9 := deref v1 in let! v10 := deref (vi_dir v9) in Ok (DirType_beq (dirType v10) DT_VALUE_CARDINAL)) (
    chk 200 (let! v11 := deref v1 in let! v12 := deref (vi_dir v11) in Ok (Cardinal_beq (Direction_cardinal v12 false) Cd_SW)) (
    chk 201 (let! v13 := deref v1 in Ok (negb (has_value (vi_rw v13)))) (
    chk 202 (let! v14 := deref v1 in Ok (negb (Distance_isReported (VisibilityGroup_minVisibility v14)))) (
    chk 203 (let! v15 := deref v1 in Ok (negb (Distance_isReported (VisibilityGroup_maxVisibility v15)))) (
    chk 204 (let! v16 := deref v1 in let! v17 := (VisibilityGroup_sectorDirections v16) in Ok (N.eqb (N.of_nat (List.length v17)) 0%N)) (
    chk 205 (let! v18 := deref v1 in Ok (ViTrend_beq (vi_trend v18) Vt_NONE)) (
    chk 206 (let! v19 := deref v1 in Ok (VisibilityGroup_isValid v19)) (
    None)))))))))))))))).

Definition t_VisibilityGroup_parseMetersDirectionSouthEast : option N :=
    step 210 ((VisibilityGroup_parse "1600SE" RP_METAR md_default)) (fun v1 => 
    chk 211 (Ok (has_value v1)) (
    chk 212 (let! v2 := deref v1 in Ok (ViType_beq (vi_type v2) Vi_DIRECTIONAL)) (
    chk 213 (let! v3 := deref v1 in Ok (DistModifier_beq (distModifier (VisibilityGroup_visibility v3)) DM_NONE)) (
    chk 214 (let! v4 := deref v1 in Ok (has_value (Distance_distance (VisibilityGroup_visibility v4)))) (
    chk 215 (let! v5 := deref v1 in let! v6 := deref (Distance_distance (VisibilityGroup_visibility v5)) in Ok (near v6 (dlit (1600) 1) (dlit (1) 200))) (
    chk 216 (let! v7 := deref v1 in Ok (DistUnit_beq (distUnit (VisibilityGroup_visibility v7)) METERS)) (
    chk 217 (let! v8 := deref v1 in Ok (has_value (vi_dir v8))) (
    chk 218 (let! v9 := deref v1 in let! v10 := deref (vi_dir v9) in Ok (DirType_beq (dirType v10) DT_VALUE_CARDINAL)) (
    chk 219 (let! v11 := deref v1 in let! v12 := deref (vi_dir v11) in Ok (Cardinal_beq (Direction_cardinal v12 false) Cd_SE)) (
    chk 220 (let! v13 := deref v1 in Ok (negb (has_value (vi_rw v13)))) (
    chk 221 (let! v14 := deref v1 in Ok (negb (Distance_isReported (VisibilityGroup_minVisibility v14)))) (
    chk 222 (let! v15 := deref v1 in Ok (negb (Distance_isReported (VisibilityGroup_maxVisibility v15)))) (
    chk 223 (let! v16 := deref v1 in let! v17 := (VisibilityGroup_sectorDirections v16) in Ok (N.eqb (N.of_nat (List.length v17)) 0%N)) (
    chk 224 (let! v18 := deref v1 in Ok (ViTrend_beq (vi_trend v18) Vt_NONE)) (
    chk 225 (let! v19 := deref v1 in Ok (VisibilityGroup_isValid v19)) (
    None)))))))))))))))).

Definition t_VisibilityGroup_parseMetersNotReported : option N :=
    step 229 ((VisibilityGroup_parse "////" RP_METAR md_default)) (fun v1 => 
    chk 230 (Ok (has_value v1)) (
    chk 231 (let! v2 := deref v1 in Ok (ViType_beq (vi_type v2) Vi_PREVAILING)) (
    chk 232 (let! v3 := deref v1 in Ok (negb (Distance_isReported (VisibilityGroup_visibility v3)))) (
    chk 233 (let! v4 := deref v1 in Ok (negb (has_value (vi_dir v4)))) (
    chk 234 (let! v5 := deref v1 in Ok (negb (has_value (vi_rw v5)))) (
    chk 235 (let! v6 := deref v1 in Ok (negb (Distance_isReported (VisibilityGroup_minVisibility v6)))) (
    chk 236 (let! v7 := deref v1 in Ok (negb (Distance_isReported (VisibilityGroup_maxVisibility v7)))) (
    chk 237 (let! v8 := deref v1 in let! v9 := (VisibilityGroup_sectorDirections v8) in Ok (N.eqb (N.of_nat (List.length v9)) 0%N)) (
    chk 238 (let! v10 := deref v1 in Ok (ViTrend_beq (vi_trend v10) Vt_NONE)) (
    chk 239 (let! v11 := deref v1 in Ok (VisibilityGroup_isValid v11)) (
    None))))))))))).

Definition t_VisibilityGroup_parseMetersNotReportedNdv : option N :=
    step 243 ((VisibilityGroup_parse "////NDV" RP_METAR md_default)) (fun v1 => 
    chk 244 (Ok (has_value v1)) (
    chk 245 (let! v2 := deref v1 in Ok (ViType_beq (vi_type v2) Vi_PREVAILING_NDV)) (
    chk 246 (let! v3 := deref v1 in Ok (negb (Distance_isReported (VisibilityGroup_visibility v3)))) (
    chk 247 (let! v4 := deref v1 in Ok (has_value (vi_dir v4))) (
    chk 248 (let! v5 := deref v1 in let! v6 := deref (vi_dir v5) in Ok (DirType_beq (dirType v6) DT_NDV)) (
    chk 249 (let! v7 := deref v1 in Ok (negb (has_value (vi_rw v7)))) (
    chk 250 (let! v8 := deref v1 in Ok (negb (Distance_isReported (VisibilityGroup_minVisibility v8)))) (
    chk 251 (let! v9 := deref v1 in Ok (negb (Distance_isReported (VisibilityGroup_maxVisibility v9)))) (
    chk 252 (let! v10 := deref v1 in let! v11 := (VisibilityGroup_sectorDirections v10) in Ok (N.eqb (N.of_nat (List.length v11)) 0%N)) (
    chk 253 (let! v12 := deref v1 in Ok (ViTrend_beq (vi_trend v12) Vt_NONE)) (
    chk 254 (let! v13 := deref v1 in Ok (VisibilityGroup_isValid v13)) (
    None)))))))))))).

Definition t_VisibilityGroup_parseMetersWrongFormat : option N :=
    chk 258 (let! v1 := (VisibilityGroup_parse "04000" RP_METAR md_default) in Ok (negb (has_value v1))) (
    chk 259 (let! v2 := (VisibilityGroup_parse "400" RP_METAR md_default) in Ok (negb (has_value v2))) (
    chk 260 (let! v3 := (VisibilityGroup_parse "400A" RP_METAR md_default) in Ok (negb (has_value v3))) (
    chk 261 (let! v4 := (VisibilityGroup_parse "4000NS" RP_METAR md_default) in Ok (negb (has_value v4))) (
    chk 262 (let! v5 := (VisibilityGroup_parse "4000WN" RP_METAR md_default) in Ok (negb (has_value v5))) (
    chk 263 (let! v6 := (VisibilityGroup_parse "4000SM" RP_METAR md_default) in Ok (negb (has_value v6))) (
    chk 264 (let! v7 := (VisibilityGroup_parse "4000N0V" RP_METAR md_default) in Ok (negb (has_value v7))) (
    chk 265 (let! v8 := (VisibilityGroup_parse "/////" RP_METAR md_default) in Ok (negb (has_value v8))) (
    chk 266 (let! v9 := (VisibilityGroup_parse "///" RP_METAR md_default) in Ok (negb (has_value v9))) (
    chk 267 (let! v10 := (VisibilityGroup_parse "P4000" RP_METAR md_default) in Ok (negb (has_value v10))) (
    chk 268 (let! v11 := (VisibilityGroup_parse "M4000" RP_METAR md_default) in Ok (negb (has_value v11))) (
    chk 269 (let! v12 := (VisibilityGroup_parse "P////" RP_METAR md_default) in Ok (negb (has_value v12))) (
    chk 270 (let! v13 := (VisibilityGroup_parse "M////" RP_METAR md_default) in Ok (negb (has_value v13))) (
    None))))))))))))).

Definition t_VisibilityGroup_parseMetersWrongReportPart : option N :=
    chk 274 (let! v1 := (VisibilityGroup_parse "1600" RP_UNKNOWN md_default) in Ok (negb (has_value v1))) (
    chk 275 (let! v2 := (VisibilityGroup_parse "1600" RP_HEADER md_default) in Ok (negb (has_value v2))) (
    chk 276 (let! v3 := (VisibilityGroup_parse "1600" RP_RMK md_default) in Ok (negb (has_value v3))) (
    None))).

Definition t_VisibilityGroup_appendMetersAndFraction : option N :=
    step 282 ((VisibilityGroup_parse "1/4SM" RP_METAR md_default)) (fun v1 => 
    chk 283 (Ok (has_value v1)) (
    step 285 ((VisibilityGroup_parse "1200" RP_METAR md_default)) (fun v2 => 
    chk 286 (Ok (has_value v2)) (
    step 288 (let! v3 := deref v2 in VisibilityGroup_append v3 "1/4SM" RP_METAR md_default) (fun p => let v4 := Some (fst p) in let v5 := snd p in 
    chk 288 (Ok (AppendResult_beq v5 NOT_APPENDED)) (
    chk 291 (let! v6 := deref v4 in Ok (ViType_beq (vi_type v6) Vi_PREVAILING)) (
    chk 292 (let! v7 := deref v4 in Ok (Distance_isReported (VisibilityGroup_visibility v7))) (
    chk 293 (let! v8 := deref v4 in Ok (has_value (Distance_distance (VisibilityGroup_visibility v8)))) (
    chk 294 (let! v9 := deref v4 in let! v10 := deref (Distance_distance (VisibilityGroup_visibility v9)) in Ok (near v10 (dlit (1200) 1) (dlit (1) 200))) (
    chk 295 (let! v11 := deref v4 in Ok (DistUnit_beq (distUnit (VisibilityGroup_visibility v11)) METERS)) (
    chk 296 (let! v12 := deref v4 in Ok (negb (has_value (vi_dir v12)))) (
    chk 297 (let! v13 := deref v4 in Ok (negb (has_value (vi_rw v13)))) (
    chk 298 (let! v14 := deref v4 in Ok (negb (Distance_isReported (VisibilityGroup_minVisibility v14)))) (
    chk 299 (let! v15 := deref v4 in Ok (negb (Distance_isReported (VisibilityGroup_maxVisibility v15)))) (
    chk 300 (let! v16 := deref v4 in let! v17 := (VisibilityGroup_sectorDirections v16) in Ok (N.eqb (N.of_nat (List.length v17)) 0%N)) (
    chk 301 (let! v18 := deref v4 in Ok (ViTrend_beq (vi_trend v18) Vt_NONE)) (
    chk 302 (let! v19 := deref v4 in Ok (VisibilityGroup_isValid v19)) (
    None)))))))))))))))))).

Definition t_VisibilityGroup_appendMetersAndRunway : option N :=
    step 306 ((VisibilityGroup_parse "1600" RP_METAR md_default)) (fun v1 => 
    chk 307 (Ok (has_value v1)) (
    step 309 (let! v2 := deref v1 in VisibilityGroup_append v2 "R05" RP_METAR md_default) (fun p => let v3 := Some (fst p) in let v4 := snd p in 
    chk 309 (Ok (AppendResult_beq v4 NOT_APPENDED)) (
    step 311 (let! v5 := deref v3 in VisibilityGroup_append v5 "RWY05" RP_METAR md_default) (fun p => let v6 := Some (fst p) in let v7 := snd p in 
    chk 311 (Ok (AppendResult_beq v7 NOT_APPENDED)) (
    chk 314 (let! v8 := deref v6 in Ok (ViType_beq (vi_type v8) Vi_PREVAILING)) (
    chk 315 (let! v9 := deref v6 in Ok (Distance_isReported (VisibilityGroup_visibility v9))) (
    chk 316 (let! v10 := deref v6 in Ok (has_value (Distance_distance (VisibilityGroup_visibility v10)))) (
    chk 317 (let! v11 := deref v6 in let! v12 := deref (Distance_distance (VisibilityGroup_visibility v11)) in Ok (near v12 (dlit (1600) 1) (dlit (1) 200))) (
    chk 318 (let! v13 := deref v6 in Ok (DistUnit_beq (distUnit (VisibilityGroup_visibility v13)) METERS)) (
    chk 319 (let! v14 := deref v6 in Ok (negb (has_value (vi_dir v14)))) (
    chk 320 (let! v15 := deref v6 in Ok (negb (has_value (vi_rw v15)))) (
    chk 321 (let! v16 := deref v6 in Ok (negb (Distance_isReported (VisibilityGroup_minVisibility v16)))) (
    chk 322 (let! v17 := deref v6 in Ok (negb (Distance_isReported (VisibilityGroup_maxVisibility v17)))) (
    chk 323 (let! v18 := deref v6 in let! v19 := (VisibilityGroup_sectorDirections v18) in Ok (N.eqb (N.of_nat (List.length v19)) 0%N)) (
    chk 324 (let! v20 := deref v6 in Ok (ViTrend_beq (vi_trend v20) Vt_NONE)) (
    chk 325 (let! v21 := deref v6 in Ok (VisibilityGroup_isValid v21)) (
    None)))))))))))))))))).

Definition t_VisibilityGroup_parseMilesInteger : option N :=
    step 338 ((VisibilityGroup_parse "3SM" RP_METAR md_default)) (fun v1 => 
    chk 339 (Ok (has_value v1)) (
    chk 340 (let! v2 := deref v1 in Ok (ViType_beq (vi_type v2) Vi_PREVAILING)) (
    chk 341 (let! v3 := deref v1 in Ok (Distance_isReported (VisibilityGroup_visibility v3))) (
    chk 342 (let! v4 := deref v1 in Ok (has_value (Distance_distance (VisibilityGroup_visibility v4)))) (
    chk 343 (let! v5 := deref v1 in let! v6 := deref (Distance_distance (VisibilityGroup_visibility v5)) in Ok (near v6 (dlit (3) 1) (dlit (1) 200))) (
    chk 344 (let! v7 := deref v1 in Ok (DistUnit_beq (distUnit (VisibilityGroup_visibility v7)) STATUTE_MILES)) (
    chk 345 (let! v8 := deref v1 in Ok (negb (has_value (vi_dir v8)))) (
    chk 346 (let! v9 := deref v1 in Ok (negb (has_value (vi_rw v9)))) (
    chk 347 (let! v10 := deref v1 in Ok (negb (Distance_isReported (VisibilityGroup_minVisibility v10)))) (
    chk 348 (let! v11 := deref v1 in Ok (negb (Distance_isReported (VisibilityGroup_maxVisibility v11)))) (
    chk 349 (let! v12 := deref v1 in let! v13 := (VisibilityGroup_sectorDirections v12) in Ok (N.eqb (N.of_nat (List.length v13)) 0%N)) (
    chk 350 (let! v14 := deref v1 in Ok (ViTrend_beq (vi_trend v14) Vt_NONE)) (
    chk 351 (let! v15 := deref v1 in Ok (VisibilityGroup_isValid v15)) (
    None)))))))))))))).

Definition t_VisibilityGroup_parseMilesIntegerTwoDigit : option N :=
    step 355 ((VisibilityGroup_parse "15SM" RP_METAR md_default)) (fun v1 => 
    chk 356 (Ok (has_value v1)) (
    chk 357 (let! v2 := deref v1 in Ok (ViType_beq (vi_type v2) Vi_PREVAILING)) (
    chk 358 (let! v3 := deref v1 in Ok (Distance_isReported (VisibilityGroup_visibility v3))) (
    chk 359 (let! v4 := deref v1 in Ok (has_value (Distance_distance (VisibilityGroup_visibility v4)))) (
    chk 360 (let! v5 := deref v1 in let! v6 := deref (Distance_distance (VisibilityGroup_visibility v5)) in Ok (near v6 (dlit (15) 1) (dlit (1) 200))) (
    chk 361 (let! v7 := deref v1 in Ok (DistUnit_beq (distUnit (VisibilityGroup_visibility v7)) STATUTE_MILES)) (
    chk 362 (let! v8 := deref v1 in Ok (negb (has_value (vi_dir v8)))) (
    chk 363 (let! v9 := deref v1 in Ok (negb (has_value (vi_rw v9)))) (
    chk 364 (let! v10 := deref v1 in Ok (negb (Distance_isReported (VisibilityGroup_minVisibility v10)))) (
    chk 365 (let! v11 := deref v1 in Ok (negb (Distance_isReported (VisibilityGroup_maxVisibility v11)))) (
    chk 366 (let! v12 := deref v1 in let! v13 := (VisibilityGroup_sectorDirections v12) in Ok (N.eqb (N.of_nat (List.length v13)) 0%N)) (
    chk 367 (let! v14 := deref v1 in Ok (ViTrend_beq (vi_trend v14) Vt_NONE)) (
    chk 368 (let! v15 := deref v1 in Ok (VisibilityGroup_isValid v15)) (
    None)))))))))))))).

Definition t_VisibilityGroup_parseMilesIntegerWithModifier : option N :=
    step 372 ((VisibilityGroup_parse "P6SM" RP_METAR md_default)) (fun v1 => 
    chk 373 (Ok (has_value v1)) (
    chk 374 (let! v2 := deref v1 in Ok (ViType_beq (vi_type v2) Vi_PREVAILING)) (
    chk 375 (let! v3 := deref v1 in Ok (Distance_isReported (VisibilityGroup_visibility v3))) (
    chk 376 (let! v4 := deref v1 in Ok (has_value (Distance_distance (VisibilityGroup_visibility v4)))) (
    chk 377 (let! v5 := deref v1 in let! v6 := deref (Distance_distance (VisibilityGroup_visibility v5)) in Ok (near v6 (dlit (6) 1) (dlit (1) 200))) (
    chk 378 (let! v7 := deref v1 in Ok (DistModifier_beq (distModifier (VisibilityGroup_visibility v7)) DM_MORE_THAN)) (
    chk 379 (let! v8 := deref v1 in Ok (DistUnit_beq (distUnit (VisibilityGroup_visibility v8)) STATUTE_MILES)) (
    chk 380 (let! v9 := deref v1 in Ok (negb (has_value (vi_dir v9)))) (
    chk 381 (let! v10 := deref v1 in Ok (negb (has_value (vi_rw v10)))) (
    chk 382 (let! v11 := deref v1 in Ok (negb (Distance_isReported (VisibilityGroup_minVisibility v11)))) (
    chk 383 (let! v12 := deref v1 in Ok (negb (Distance_isReported (VisibilityGroup_maxVisibility v12)))) (
    chk 384 (let! v13 := deref v1 in let! v14 := (VisibilityGroup_sectorDirections v13) in Ok (N.eqb (N.of_nat (List.length v14)) 0%N)) (
    chk 385 (let! v15 := deref v1 in Ok (ViTrend_beq (vi_trend v15) Vt_NONE)) (
    chk 386 (let! v16 := deref v1 in Ok (VisibilityGroup_isValid v16)) (
    None))))))))))))))).

Definition t_VisibilityGroup_parseMilesFraction : option N :=
    step 390 ((VisibilityGroup_parse "1/4SM" RP_METAR md_default)) (fun v1 => 
    chk 391 (Ok (has_value v1)) (
    chk 392 (let! v2 := deref v1 in Ok (ViType_beq (vi_type v2) Vi_PREVAILING)) (
    chk 393 (let! v3 := deref v1 in Ok (Distance_isReported (VisibilityGroup_visibility v3))) (
    chk 394 (let! v4 := deref v1 in Ok (has_value (Distance_distance (VisibilityGroup_visibility v4)))) (
    chk 395 (let! v5 := deref v1 in let! v6 := deref (Distance_distance (VisibilityGroup_visibility v5)) in Ok (near v6 (dlit (1) 4) (dlit (1) 200))) (
    chk 396 (let! v7 := deref v1 in Ok (DistUnit_beq (distUnit (VisibilityGroup_visibility v7)) STATUTE_MILES)) (
    chk 397 (let! v8 := deref v1 in Ok (negb (has_value (vi_dir v8)))) (
    chk 398 (let! v9 := deref v1 in Ok (negb (has_value (vi_rw v9)))) (
    chk 399 (let! v10 := deref v1 in Ok (negb (Distance_isReported (VisibilityGroup_minVisibility v10)))) (
    chk 400 (let! v11 := deref v1 in Ok (negb (Distance_isReported (VisibilityGroup_maxVisibility v11)))) (
    chk 401 (let! v12 := deref v1 in let! v13 := (VisibilityGroup_sectorDirections v12) in Ok (N.eqb (N.of_nat (List.length v13)) 0%N)) (
    chk 402 (let! v14 := deref v1 in Ok (ViTrend_beq (vi_trend v14) Vt_NONE)) (
    chk 403 (let! v15 := deref v1 in Ok (VisibilityGroup_isValid v15)) (
    None)))))))))))))).

Definition t_VisibilityGroup_parseMilesFractionWithModifier : option N :=
    step 407 ((VisibilityGroup_parse "M1/4SM" RP_METAR md_default)) (fun v1 => 
    chk 408 (Ok (has_value v1)) (
    chk 409 (let! v2 := deref v1 in Ok (ViType_beq (vi_type v2) Vi_PREVAILING)) (
    chk 410 (let! v3 := deref v1 in Ok (Distance_isReported (VisibilityGroup_visibility v3))) (
    chk 411 (let! v4 := deref v1 in Ok (DistModifier_beq (distModifier (VisibilityGroup_visibility v4)) DM_LESS_THAN)) (
    chk 412 (let! v5 := deref v1 in Ok (has_value (Distance_distance (VisibilityGroup_visibility v5)))) (
    chk 413 (let! v6 := deref v1 in let! v7 := deref (Distance_distance (VisibilityGroup_visibility v6)) in Ok (near v7 (dlit (1) 4) (dlit (1) 200))) (
    chk 414 (let! v8 := deref v1 in Ok (DistUnit_beq (distUnit (VisibilityGroup_visibility v8)) STATUTE_MILES)) (
    chk 415 (let! v9 := deref v1 in Ok (negb (has_value (vi_dir v9)))) (
    chk 416 (let! v10 := deref v1 in Ok (negb (has_value (vi_rw v10)))) (
    chk 417 (let! v11 := deref v1 in Ok (negb (Distance_isReported (VisibilityGroup_minVisibility v11)))) (
    chk 418 (let! v12 := deref v1 in Ok (negb (Distance_isReported (VisibilityGroup_maxVisibility v12)))) (
    chk 419 (let! v13 := deref v1 in let! v14 := (VisibilityGroup_sectorDirections v13) in Ok (N.eqb (N.of_nat (List.length v14)) 0%N)) (
    chk 420 (let! v15 := deref v1 in Ok (ViTrend_beq (vi_trend v15) Vt_NONE)) (
    chk 421 (let! v16 := deref v1 in Ok (VisibilityGroup_isValid v16)) (
    None))))))))))))))).

Definition t_VisibilityGroup_parseMilesIntegerNotReported : option N :=
    step 425 ((VisibilityGroup_parse "////SM" RP_METAR md_default)) (fun v1 => 
    chk 426 (Ok (has_value v1)) (
    chk 427 (let! v2 := deref v1 in Ok (ViType_beq (vi_type v2) Vi_PREVAILING)) (
    chk 428 (let! v3 := deref v1 in Ok (negb (Distance_isReported (VisibilityGroup_visibility v3)))) (
    chk 429 (let! v4 := deref v1 in Ok (DistUnit_beq (distUnit (VisibilityGroup_visibility v4)) STATUTE_MILES)) (
    chk 430 (let! v5 := deref v1 in Ok (negb (has_value (vi_dir v5)))) (
    chk 431 (let! v6 := deref v1 in Ok (negb (has_value (vi_rw v6)))) (
    chk 432 (let! v7 := deref v1 in Ok (negb (Distance_isReported (VisibilityGroup_minVisibility v7)))) (
    chk 433 (let! v8 := deref v1 in Ok (negb (Distance_isReported (VisibilityGroup_maxVisibility v8)))) (
    chk 434 (let! v9 := deref v1 in let! v10 := (VisibilityGroup_sectorDirections v9) in Ok (N.eqb (N.of_nat (List.length v10)) 0%N)) (
    chk 435 (let! v11 := deref v1 in Ok (ViTrend_beq (vi_trend v11) Vt_NONE)) (
    chk 436 (let! v12 := deref v1 in Ok (VisibilityGroup_isValid v12)) (
    None)))))))))))).

Definition t_VisibilityGroup_parseMilesWrongFormat : option N :=
    chk 440 (let! v1 := (VisibilityGroup_parse "SM" RP_METAR md_default) in Ok (negb (has_value v1))) (
    chk 441 (let! v2 := (VisibilityGroup_parse "/2SM" RP_METAR md_default) in Ok (negb (has_value v2))) (
    chk 442 (let! v3 := (VisibilityGroup_parse "1/2" RP_METAR md_default) in Ok (negb (has_value v3))) (
    chk 443 (let! v4 := (VisibilityGroup_parse "A/2SM" RP_METAR md_default) in Ok (negb (has_value v4))) (
    chk 444 (let! v5 := (VisibilityGroup_parse "P6SMNW" RP_METAR md_default) in Ok (negb (has_value v5))) (
    chk 445 (let! v6 := (VisibilityGroup_parse "X6SM" RP_METAR md_default) in Ok (negb (has_value v6))) (
    chk 446 (let! v7 := (VisibilityGroup_parse "/////SM" RP_METAR md_default) in Ok (negb (has_value v7))) (
    chk 447 (let! v8 := (VisibilityGroup_parse "///SM" RP_METAR md_default) in Ok (negb (has_value v8))) (
    chk 448 (let! v9 := (VisibilityGroup_parse "1/0SM" RP_METAR md_default) in Ok (negb (has_value v9))) (
    chk 449 (let! v10 := (VisibilityGroup_parse "M1/0SM" RP_METAR md_default) in Ok (negb (has_value v10))) (
    chk 450 (let! v11 := (VisibilityGroup_parse "0/2SM" RP_METAR md_default) in Ok (negb (has_value v11))) (
    chk 451 (let! v12 := (VisibilityGroup_parse "M0/2SM" RP_METAR md_default) in Ok (negb (has_value v12))) (
    chk 452 (let! v13 := (VisibilityGroup_parse "10/2SM" RP_METAR md_default) in Ok (negb (has_value v13))) (
    chk 453 (let! v14 := (VisibilityGroup_parse "M10/2SM" RP_METAR md_default) in Ok (negb (has_value v14))) (
    None)))))))))))))).

Definition t_VisibilityGroup_parseMilesIncomplete : option N :=
    step 457 ((VisibilityGroup_parse "1" RP_METAR md_default)) (fun v1 => 
    chk 458 (Ok (has_value v1)) (
    chk 459 (let! v2 := deref v1 in Ok (ViType_beq (vi_type v2) Vi_PREVAILING)) (
    chk 460 (let! v3 := deref v1 in Ok (DistModifier_beq (distModifier (VisibilityGroup_visibility v3)) DM_NONE)) (
    chk 461 (let! v4 := deref v1 in Ok (Distance_isReported (VisibilityGroup_visibility v4))) (
    chk 462 (let! v5 := deref v1 in Ok (has_value (Distance_distance (VisibilityGroup_visibility v5)))) (
    chk 463 (let! v6 := deref v1 in let! v7 := deref (Distance_distance (VisibilityGroup_visibility v6)) in Ok (near v7 (dlit (1) 1) (dlit (1) 200))) (
    chk 464 (let! v8 := deref v1 in Ok (DistUnit_beq (distUnit (VisibilityGroup_visibility v8)) STATUTE_MILES)) (
    chk 465 (let! v9 := deref v1 in Ok (negb (has_value (vi_dir v9)))) (
    chk 466 (let! v10 := deref v1 in Ok (negb (Distance_isReported (VisibilityGroup_minVisibility v10)))) (
    chk 467 (let! v11 := deref v1 in Ok (negb (Distance_isReported (VisibilityGroup_maxVisibility v11)))) (
    chk 468 (let! v12 := deref v1 in let! v13 := (VisibilityGroup_sectorDirections v12) in Ok (N.eqb (N.of_nat (List.length v13)) 0%N)) (
    chk 469 (let! v14 := deref v1 in Ok (ViTrend_beq (vi_trend v14) Vt_NONE)) (
    chk 470 (let! v15 := deref v1 in Ok (negb (VisibilityGroup_isValid v15))) (
    step 472 ((VisibilityGroup_parse "9" RP_METAR md_default)) (fun v16 => 
    chk 473 (Ok (has_value v16)) (
    chk 474 (let! v17 := deref v16 in Ok (ViType_beq (vi_type v17) Vi_PREVAILING)) (
    chk 475 (let! v18 := deref v16 in Ok (DistModifier_beq (distModifier (VisibilityGroup_visibility v18)) DM_NONE)) (
    chk 476 (let! v19 := deref v16 in Ok (Distance_isReported (VisibilityGroup_visibility v19))) (
    chk 477 (let! v20 := deref v16 in Ok (has_value (Distance_distance (VisibilityGroup_visibility v20)))) (
    chk 478 (let! v21 := deref v16 in let! v22 := deref (Distance_distance (VisibilityGroup_visibility v21)) in Ok (near v22 (dlit (9) 1) (dlit (1) 200))) (
    chk 479 (let! v23 := deref v16 in Ok (DistUnit_beq (distUnit (VisibilityGroup_visibility v23)) STATUTE_MILES)) (
    chk 480 (let! v24 := deref v16 in Ok (negb (has_value (vi_dir v24)))) (
    chk 481 (let! v25 := deref v16 in Ok (negb (has_value (vi_rw v25)))) (
    chk 482 (let! v26 := deref v16 in Ok (negb (Distance_isReported (VisibilityGroup_minVisibility v26)))) (
    chk 483 (let! v27 := deref v16 in Ok (negb (Distance_isReported (VisibilityGroup_maxVisibility v27)))) (
    chk 484 (let! v28 := deref v16 in let! v29 := (VisibilityGroup_sectorDirections v28) in Ok (N.eqb (N.of_nat (List.length v29)) 0%N)) (
    chk 485 (let! v30 := deref v16 in Ok (ViTrend_beq (vi_trend v30) Vt_NONE)) (
    chk 486 (let! v31 := deref v16 in Ok (negb (VisibilityGroup_isValid v31))) (
    step 488 ((VisibilityGroup_parse "10" RP_METAR md_default)) (fun v32 => 
    chk 489 (Ok (has_value v32)) (
    chk 490 (let! v33 := deref v32 in Ok (ViType_beq (vi_type v33) Vi_PREVAILING)) (
    chk 491 (let! v34 := deref v32 in Ok (DistModifier_beq (distModifier (VisibilityGroup_visibility v34)) DM_NONE)) (
    chk 492 (let! v35 := deref v32 in Ok (Distance_isReported (VisibilityGroup_visibility v35))) (
    chk 493 (let! v36 := deref v32 in Ok (has_value (Distance_distance (VisibilityGroup_visibility v36)))) (
    chk 494 (let! v37 := deref v32 in let! v38 := deref (Distance_distance (VisibilityGroup_visibility v37)) in Ok (near v38 (dlit (10) 1) (dlit (1) 200))) (
    chk 495 (let! v39 := deref v32 in Ok (DistUnit_beq (distUnit (VisibilityGroup_visibility v39)) STATUTE_MILES)) (
    chk 496 (let! v40 := deref v32 in Ok (negb (has_value (vi_dir v40)))) (
    chk 497 (let! v41 := deref v32 in Ok (negb (has_value (vi_rw v41)))) (
    chk 498 (let! v42 := deref v32 in Ok (negb (Distance_isReported (VisibilityGroup_minVisibility v42)))) (
    chk 499 (let! v43 := deref v32 in Ok (negb (Distance_isReported (VisibilityGroup_maxVisibility v43)))) (
    chk 500 (let! v44 := deref v32 in let! v45 := (VisibilityGroup_sectorDirections v44) in Ok (N.eqb (N.of_nat (List.length v45)) 0%N)) (
    chk 501 (let! v46 := deref v32 in Ok (ViTrend_beq (vi_trend v46) Vt_NONE)) (
    chk 502 (let! v47 := deref v32 in Ok (negb (VisibilityGroup_isValid v47))) (
    None)))))))))))))))))))))))))))))))))))))))))))).

Definition t_VisibilityGroup_parseMilesIncompleteWrongFormat : option N :=
    chk 506 (let! v1 := (VisibilityGroup_parse "A" RP_METAR md_default) in Ok (negb (has_value v1))) (
    chk 507 (let! v2 := (VisibilityGroup_parse "M" RP_METAR md_default) in Ok (negb (has_value v2))) (
    chk 508 (let! v3 := (VisibilityGroup_parse "P" RP_METAR md_default) in Ok (negb (has_value v3))) (
    chk 509 (let! v4 := (VisibilityGroup_parse "/" RP_METAR md_default) in Ok (negb (has_value v4))) (
    chk 510 (let! v5 := (VisibilityGroup_parse "M1" RP_METAR md_default) in Ok (negb (has_value v5))) (
    chk 511 (let! v6 := (VisibilityGroup_parse "P1" RP_METAR md_default) in Ok (negb (has_value v6))) (
    chk 512 (let! v7 := (VisibilityGroup_parse "M15" RP_METAR md_default) in Ok (negb (has_value v7))) (
    chk 513 (let! v8 := (VisibilityGroup_parse "P15" RP_METAR md_default) in Ok (negb (has_value v8))) (
    chk 514 (let! v9 := (VisibilityGroup_parse "M/" RP_METAR md_default) in Ok (negb (has_value v9))) (
    chk 515 (let! v10 := (VisibilityGroup_parse "P/" RP_METAR md_default) in Ok (negb (has_value v10))) (
    None)))))))))).

Definition t_VisibilityGroup_appendIncompleteAndFraction : option N :=
    step 519 ((VisibilityGroup_parse "2" RP_METAR md_default)) (fun v1 => 
    chk 520 (Ok (has_value v1)) (
    step 522 (let! v2 := deref v1 in VisibilityGroup_append v2 "1/4SM" RP_METAR md_default) (fun p => let v3 := Some (fst p) in let v4 := snd p in 
    chk 522 (Ok (AppendResult_beq v4 APPENDED)) (
    chk 524 (let! v5 := deref v3 in Ok (ViType_beq (vi_type v5) Vi_PREVAILING)) (
    chk 525 (let! v6 := deref v3 in Ok (DistModifier_beq (distModifier (VisibilityGroup_visibility v6)) DM_NONE)) (
    chk 526 (let! v7 := deref v3 in Ok (has_value (Distance_distance (VisibilityGroup_visibility v7)))) (
    chk 527 (let! v8 := deref v3 in let! v9 := deref (Distance_distance (VisibilityGroup_visibility v8)) in Ok (near v9 (dlit (9) 4) (dlit (1) 200))) (
    chk 528 (let! v10 := deref v3 in Ok (DistUnit_beq (distUnit (VisibilityGroup_visibility v10)) STATUTE_MILES)) (
    chk 529 (let! v11 := deref v3 in Ok (negb (has_value (vi_dir v11)))) (
    chk 530 (let! v12 := deref v3 in Ok (negb (has_value (vi_rw v12)))) (
    chk 531 (let! v13 := deref v3 in Ok (negb (Distance_isReported (VisibilityGroup_minVisibility v13)))) (
    chk 532 (let! v14 := deref v3 in Ok (negb (Distance_isReported (VisibilityGroup_maxVisibility v14)))) (
    chk 533 (let! v15 := deref v3 in let! v16 := (VisibilityGroup_sectorDirections v15) in Ok (N.eqb (N.of_nat (List.length v16)) 0%N)) (
    chk 534 (let! v17 := deref v3 in Ok (ViTrend_beq (vi_trend v17) Vt_NONE)) (
    chk 535 (let! v18 := deref v3 in Ok (VisibilityGroup_isValid v18)) (
    None)))))))))))))))).

Definition t_VisibilityGroup_appendIncompleteAndOther : option N :=
    step 539 ((VisibilityGroup_parse "2" RP_METAR md_default)) (fun v1 => 
    chk 540 (Ok (has_value v1)) (
    step 542 (let! v2 := deref v1 in VisibilityGroup_append v2 "2" RP_METAR md_default) (fun p => let v3 := Some (fst p) in let v4 := snd p in 
    chk 542 (Ok (AppendResult_beq v4 GROUP_INVALIDATED)) (
    step 544 (let! v5 := deref v3 in VisibilityGroup_append v5 "1200" RP_METAR md_default) (fun p => let v6 := Some (fst p) in let v7 := snd p in 
    chk 544 (Ok (AppendResult_beq v7 GROUP_INVALIDATED)) (
    step 546 (let! v8 := deref v6 in VisibilityGroup_append v8 "1SM" RP_METAR md_default) (fun p => let v9 := Some (fst p) in let v10 := snd p in 
    chk 546 (Ok (AppendResult_beq v10 GROUP_INVALIDATED)) (
    step 548 (let! v11 := deref v9 in VisibilityGroup_append v11 "M1/4SM" RP_METAR md_default) (fun p => let v12 := Some (fst p) in let v13 := snd p in 
    chk 548 (Ok (AppendResult_beq v13 GROUP_INVALIDATED)) (
    step 550 (let! v14 := deref v12 in VisibilityGroup_append v14 "R06" RP_METAR md_default) (fun p => let v15 := Some (fst p) in let v16 := snd p in 
    chk 550 (Ok (AppendResult_beq v16 GROUP_INVALIDATED)) (
    step 552 (let! v17 := deref v15 in VisibilityGroup_append v17 "RWY06" RP_METAR md_default) (fun p => let v18 := Some (fst p) in let v19 := snd p in 
    chk 552 (Ok (AppendResult_beq v19 GROUP_INVALIDATED)) (
    chk 555 (let! v20 := deref v18 in Ok (ViType_beq (vi_type v20) Vi_PREVAILING)) (
    chk 556 (let! v21 := deref v18 in Ok (Distance_isReported (VisibilityGroup_visibility v21))) (
    chk 557 (let! v22 := deref v18 in Ok (has_value (Distance_distance (VisibilityGroup_visibility v22)))) (
    chk 558 (let! v23 := deref v18 in let! v24 := deref (Distance_distance (VisibilityGroup_visibility v23)) in Ok (near v24 (dlit (2) 1) (dlit (1) 200))) (
    chk 559 (let! v25 := deref v18 in Ok (DistModifier_beq (distModifier (VisibilityGroup_visibility v25)) DM_NONE)) (
    chk 560 (let! v26 := deref v18 in Ok (DistUnit_beq (distUnit (VisibilityGroup_visibility v26)) STATUTE_MILES)) (
    chk 561 (let! v27 := deref v18 in Ok (negb (has_value (vi_dir v27)))) (
    chk 562 (let! v28 := deref v18 in Ok (negb (has_value (vi_rw v28)))) (
    chk 563 (let! v29 := deref v18 in Ok (negb (Distance_isReported (VisibilityGroup_minVisibility v29)))) (
    chk 564 (let! v30 := deref v18 in Ok (negb (Distance_isReported (VisibilityGroup_maxVisibility v30)))) (
    chk 565 (let! v31 := deref v18 in let! v32 := (VisibilityGroup_sectorDirections v31) in Ok (N.eqb (N.of_nat (List.length v32)) 0%N)) (
    chk 566 (let! v33 := deref v18 in Ok (ViTrend_beq (vi_trend v33) Vt_NONE)) (
    None)))))))))))))))))))))))))).

Definition t_VisibilityGroup_appendFractionAndIncomplete : option N :=
    step 572 ((VisibilityGroup_parse "2" RP_METAR md_default)) (fun v1 => 
    chk 573 (Ok (has_value v1)) (
    step 575 ((VisibilityGroup_parse "1/4SM" RP_METAR md_default)) (fun v2 => 
    chk 576 (Ok (has_value v2)) (
    step 578 (let! v3 := deref v2 in VisibilityGroup_append v3 "2" RP_METAR md_default) (fun p => let v4 := Some (fst p) in let v5 := snd p in 
    chk 578 (Ok (AppendResult_beq v5 NOT_APPENDED)) (
    chk 581 (let! v6 := deref v4 in Ok (ViType_beq (vi_type v6) Vi_PREVAILING)) (
    chk 582 (let! v7 := deref v4 in Ok (Distance_isReported (VisibilityGroup_visibility v7))) (
    chk 583 (let! v8 := deref v4 in Ok (has_value (Distance_distance (VisibilityGroup_visibility v8)))) (
    chk 584 (let! v9 := deref v4 in let! v10 := deref (Distance_distance (VisibilityGroup_visibility v9)) in Ok (near v10 (dlit (1) 4) (dlit (1) 200))) (
    chk 585 (let! v11 := deref v4 in Ok (DistUnit_beq (distUnit (VisibilityGroup_visibility v11)) STATUTE_MILES)) (
    chk 586 (let! v12 := deref v4 in Ok (negb (has_value (vi_dir v12)))) (
    chk 587 (let! v13 := deref v4 in Ok (negb (has_value (vi_rw v13)))) (
    chk 588 (let! v14 := deref v4 in Ok (negb (Distance_isReported (VisibilityGroup_minVisibility v14)))) (
    chk 589 (let! v15 := deref v4 in Ok (negb (Distance_isReported (VisibilityGroup_maxVisibility v15)))) (
    chk 590 (let! v16 := deref v4 in let! v17 := (VisibilityGroup_sectorDirections v16) in Ok (N.eqb (N.of_nat (List.length v17)) 0%N)) (
    chk 591 (let! v18 := deref v4 in Ok (ViTrend_beq (vi_trend v18) Vt_NONE)) (
    chk 592 (let! v19 := deref v4 in Ok (VisibilityGroup_isValid v19)) (
    None)))))))))))))))))).

Definition t_VisibilityGroup_appendFractionAndRunway : option N :=
    step 596 ((VisibilityGroup_parse "1/4SM" RP_METAR md_default)) (fun v1 => 
    chk 597 (Ok (has_value v1)) (
    step 599 (let! v2 := deref v1 in VisibilityGroup_append v2 "RWY05" RP_METAR md_default) (fun p => let v3 := Some (fst p) in let v4 := snd p in 
    chk 599 (Ok (AppendResult_beq v4 NOT_APPENDED)) (
    step 601 (let! v5 := deref v3 in VisibilityGroup_append v5 "R05" RP_METAR md_default) (fun p => let v6 := Some (fst p) in let v7 := snd p in 
    chk 601 (Ok (AppendResult_beq v7 NOT_APPENDED)) (
    chk 604 (let! v8 := deref v6 in Ok (ViType_beq (vi_type v8) Vi_PREVAILING)) (
    chk 605 (let! v9 := deref v6 in Ok (Distance_isReported (VisibilityGroup_visibility v9))) (
    chk 606 (let! v10 := deref v6 in Ok (DistModifier_beq (distModifier (VisibilityGroup_visibility v10)) DM_NONE)) (
    chk 607 (let! v11 := deref v6 in Ok (has_value (Distance_distance (VisibilityGroup_visibility v11)))) (
    chk 608 (let! v12 := deref v6 in let! v13 := deref (Distance_distance (VisibilityGroup_visibility v12)) in Ok (flt_eqb v13 (dlit (1) 4))) (
    chk 609 (let! v14 := deref v6 in Ok (DistUnit_beq (distUnit (VisibilityGroup_visibility v14)) STATUTE_MILES)) (
    chk 610 (let! v15 := deref v6 in Ok (negb (has_value (vi_dir v15)))) (
    chk 611 (let! v16 := deref v6 in Ok (negb (has_value (vi_rw v16)))) (
    chk 612 (let! v17 := deref v6 in Ok (negb (Distance_isReported (VisibilityGroup_minVisibility v17)))) (
    chk 613 (let! v18 := deref v6 in Ok (negb (Distance_isReported (VisibilityGroup_maxVisibility v18)))) (
    chk 614 (let! v19 := deref v6 in let! v20 := (VisibilityGroup_sectorDirections v19) in Ok (N.eqb (N.of_nat (List.length v20)) 0%N)) (
    chk 615 (let! v21 := deref v6 in Ok (ViTrend_beq (vi_trend v21) Vt_NONE)) (
    chk 616 (let! v22 := deref v6 in Ok (VisibilityGroup_isValid v22)) (
    None))))))))))))))))))).

Definition t_VisibilityGroup_appendMilesIntegerAndFraction : option N :=
    step 622 ((VisibilityGroup_parse "1/4SM" RP_METAR md_default)) (fun v1 => 
    chk 623 (Ok (has_value v1)) (
    step 625 ((VisibilityGroup_parse "1SM" RP_METAR md_default)) (fun v2 => 
    chk 626 (Ok (has_value v2)) (
    step 628 (let! v3 := deref v2 in VisibilityGroup_append v3 "1/4SM" RP_METAR md_default) (fun p => let v4 := Some (fst p) in let v5 := snd p in 
    chk 628 (Ok (AppendResult_beq v5 NOT_APPENDED)) (
    chk 631 (let! v6 := deref v4 in Ok (ViType_beq (vi_type v6) Vi_PREVAILING)) (
    chk 632 (let! v7 := deref v4 in Ok (Distance_isReported (VisibilityGroup_visibility v7))) (
    chk 633 (let! v8 := deref v4 in Ok (DistModifier_beq (distModifier (VisibilityGroup_visibility v8)) DM_NONE)) (
    chk 634 (let! v9 := deref v4 in Ok (has_value (Distance_distance (VisibilityGroup_visibility v9)))) (
    chk 635 (let! v10 := deref v4 in let! v11 := deref (Distance_distance (VisibilityGroup_visibility v10)) in Ok (near v11 (dlit (1) 1) (dlit (1) 200))) (
    chk 636 (let! v12 := deref v4 in Ok (DistUnit_beq (distUnit (VisibilityGroup_visibility v12)) STATUTE_MILES)) (
    chk 637 (let! v13 := deref v4 in Ok (negb (has_value (vi_dir v13)))) (
    chk 638 (let! v14 := deref v4 in Ok (negb (has_value (vi_rw v14)))) (
    chk 639 (let! v15 := deref v4 in Ok (negb (Distance_isReported (VisibilityGroup_minVisibility v15)))) (
    chk 640 (let! v16 := deref v4 in Ok (negb (Distance_isReported (VisibilityGroup_maxVisibility v16)))) (
    chk 641 (let! v17 := deref v4 in let! v18 := (VisibilityGroup_sectorDirections v17) in Ok (N.eqb (N.of_nat (List.length v18)) 0%N)) (
    chk 642 (let! v19 := deref v4 in Ok (ViTrend_beq (vi_trend v19) Vt_NONE)) (
    chk 643 (let! v20 := deref v4 in Ok (VisibilityGroup_isValid v20)) (
    None))))))))))))))))))).

Definition t_VisibilityGroup_appendIntegerMilesWithModifierAndFraction : option N :=
    step 649 ((VisibilityGroup_parse "1/4SM" RP_METAR md_default)) (fun v1 => 
    chk 650 (Ok (has_value v1)) (
    step 652 ((VisibilityGroup_parse "P2SM" RP_METAR md_default)) (fun v2 => 
    chk 653 (Ok (has_value v2)) (
    step 655 (let! v3 := deref v2 in VisibilityGroup_append v3 "1/4SM" RP_METAR md_default) (fun p => let v4 := Some (fst p) in let v5 := snd p in 
    chk 655 (Ok (AppendResult_beq v5 NOT_APPENDED)) (
    chk 658 (let! v6 := deref v4 in Ok (ViType_beq (vi_type v6) Vi_PREVAILING)) (
    chk 659 (let! v7 := deref v4 in Ok (Distance_isReported (VisibilityGroup_visibility v7))) (
    chk 660 (let! v8 := deref v4 in Ok (DistModifier_beq (distModifier (VisibilityGroup_visibility v8)) DM_MORE_THAN)) (
    chk 661 (let! v9 := deref v4 in Ok (has_value (Distance_distance (VisibilityGroup_visibility v9)))) (
    chk 662 (let! v10 := deref v4 in let! v11 := deref (Distance_distance (VisibilityGroup_visibility v10)) in Ok (near v11 (dlit (2) 1) (dlit (1) 200))) (
    chk 663 (let! v12 := deref v4 in Ok (DistUnit_beq (distUnit (VisibilityGroup_visibility v12)) STATUTE_MILES)) (
    chk 664 (let! v13 := deref v4 in Ok (negb (has_value (vi_dir v13)))) (
    chk 665 (let! v14 := deref v4 in Ok (negb (has_value (vi_rw v14)))) (
    chk 666 (let! v15 := deref v4 in Ok (negb (Distance_isReported (VisibilityGroup_minVisibility v15)))) (
    chk 667 (let! v16 := deref v4 in Ok (negb (Distance_isReported (VisibilityGroup_maxVisibility v16)))) (
    chk 668 (let! v17 := deref v4 in let! v18 := (VisibilityGroup_sectorDirections v17) in Ok (N.eqb (N.of_nat (List.length v18)) 0%N)) (
    chk 669 (let! v19 := deref v4 in Ok (ViTrend_beq (vi_trend v19) Vt_NONE)) (
    chk 670 (let! v20 := deref v4 in Ok (VisibilityGroup_isValid v20)) (
    None))))))))))))))))))).

Definition t_VisibilityGroup_appendInvalidFraction : option N :=
    step 674 ((VisibilityGroup_parse "2" RP_METAR md_default)) (fun v1 => 
    chk 675 (Ok (has_value v1)) (
    step 677 (let! v2 := deref v1 in VisibilityGroup_append v2 "1/0SM" RP_METAR md_default) (fun p => let v3 := Some (fst p) in let v4 := snd p in 
    chk 677 (Ok (AppendResult_beq v4 GROUP_INVALIDATED)) (
    None)))).

Definition t_VisibilityGroup_appendToCompleteIntegerFraction : option N :=
    step 682 ((VisibilityGroup_parse "2" RP_METAR md_default)) (fun v1 => 
    chk 683 (Ok (has_value v1)) (
    step 685 (let! v2 := deref v1 in VisibilityGroup_append v2 "1/4SM" RP_METAR md_default) (fun p => let v3 := Some (fst p) in let v4 := snd p in 
    chk 685 (Ok (AppendResult_beq v4 APPENDED)) (
    step 688 (let! v5 := deref v3 in VisibilityGroup_append v5 "9999" RP_METAR md_default) (fun p => let v6 := Some (fst p) in let v7 := snd p in 
    chk 688 (Ok (AppendResult_beq v7 NOT_APPENDED)) (
    step 690 (let! v8 := deref v6 in VisibilityGroup_append v8 "9999NDV" RP_METAR md_default) (fun p => let v9 := Some (fst p) in let v10 := snd p in 
    chk 690 (Ok (AppendResult_beq v10 NOT_APPENDED)) (
    step 692 (let! v11 := deref v9 in VisibilityGroup_append v11 "3000E" RP_METAR md_default) (fun p => let v12 := Some (fst p) in let v13 := snd p in 
    chk 692 (Ok (AppendResult_beq v13 NOT_APPENDED)) (
    step 694 (let! v14 := deref v12 in VisibilityGroup_append v14 "1" RP_METAR md_default) (fun p => let v15 := Some (fst p) in let v16 := snd p in 
    chk 694 (Ok (AppendResult_beq v16 NOT_APPENDED)) (
    step 696 (let! v17 := deref v15 in VisibilityGroup_append v17 "1/2SM" RP_METAR md_default) (fun p => let v18 := Some (fst p) in let v19 := snd p in 
    chk 696 (Ok (AppendResult_beq v19 NOT_APPENDED)) (
    step 698 (let! v20 := deref v18 in VisibilityGroup_append v20 "3SM" RP_METAR md_default) (fun p => let v21 := Some (fst p) in let v22 := snd p in 
    chk 698 (Ok (AppendResult_beq v22 NOT_APPENDED)) (
    step 700 (let! v23 := deref v21 in VisibilityGroup_append v23 "P6SM" RP_METAR md_default) (fun p => let v24 := Some (fst p) in let v25 := snd p in 
    chk 700 (Ok (AppendResult_beq v25 NOT_APPENDED)) (
    step 702 (let! v26 := deref v24 in VisibilityGroup_append v26 "////" RP_METAR md_default) (fun p => let v27 := Some (fst p) in let v28 := snd p in 
    chk 702 (Ok (AppendResult_beq v28 NOT_APPENDED)) (
    step 704 (let! v29 := deref v27 in VisibilityGroup_append v29 "TEST" RP_METAR md_default) (fun p => let v30 := Some (fst p) in let v31 := snd p in 
    chk 704 (Ok (AppendResult_beq v31 NOT_APPENDED)) (
    step 706 (let! v32 := deref v30 in VisibilityGroup_append v32 "RMK" RP_METAR md_default) (fun p => let v33 := Some (fst p) in let v34 := snd p in 
    chk 706 (Ok (AppendResult_beq v34 NOT_APPENDED)) (
    step 708 (let! v35 := deref v33 in VisibilityGroup_append v35 "R05" RP_METAR md_default) (fun p => let v36 := Some (fst p) in let v37 := snd p in 
    chk 708 (Ok (AppendResult_beq v37 NOT_APPENDED)) (
    step 710 (let! v38 := deref v36 in VisibilityGroup_append v38 "RWY05" RP_METAR md_default) (fun p => let v39 := Some (fst p) in let v40 := snd p in 
    chk 710 (Ok (AppendResult_beq v40 NOT_APPENDED)) (
    chk 713 (let! v41 := deref v39 in Ok (ViType_beq (vi_type v41) Vi_PREVAILING)) (
    chk 714 (let! v42 := deref v39 in Ok (DistModifier_beq (distModifier (VisibilityGroup_visibility v42)) DM_NONE)) (
    chk 715 (let! v43 := deref v39 in Ok (has_value (Distance_distance (VisibilityGroup_visibility v43)))) (
    chk 716 (let! v44 := deref v39 in let! v45 := deref (Distance_distance (VisibilityGroup_visibility v44)) in Ok (near v45 (dlit (9) 4) (dlit (1) 200))) (
    chk 717 (let! v46 := deref v39 in Ok (DistUnit_beq (distUnit (VisibilityGroup_visibility v46)) STATUTE_MILES)) (
    chk 718 (let! v47 := deref v39 in Ok (negb (has_value (vi_dir v47)))) (
    chk 719 (let! v48 := deref v39 in Ok (negb (has_value (vi_rw v48)))) (
    chk 720 (let! v49 := deref v39 in Ok (negb (Distance_isReported (VisibilityGroup_minVisibility v49)))) (
    chk 721 (let! v50 := deref v39 in Ok (negb (Distance_isReported (VisibilityGroup_maxVisibility v50)))) (
    chk 722 (let! v51 := deref v39 in let! v52 := (VisibilityGroup_sectorDirections v51) in Ok (N.eqb (N.of_nat (List.length v52)) 0%N)) (
    chk 723 (let! v53 := deref v39 in Ok (VisibilityGroup_isValid v53)) (
    None))))))))))))))))))))))))))))))))))))))).

Definition t_VisibilityGroup_parseVisMisg : option N :=
    step 734 ((VisibilityGroup_parse "VIS" RP_RMK md_default)) (fun v1 => 
    chk 735 (Ok (has_value v1)) (
    step 737 (let! v2 := deref v1 in VisibilityGroup_append v2 "MISG" RP_RMK md_default) (fun p => let v3 := Some (fst p) in let v4 := snd p in 
    chk 737 (Ok (AppendResult_beq v4 APPENDED)) (
    step 739 (let! v5 := deref v3 in VisibilityGroup_append v5 "" RP_RMK md_default) (fun p => let v6 := Some (fst p) in let v7 := snd p in 
    chk 739 (Ok (AppendResult_beq v7 NOT_APPENDED)) (
    chk 742 (let! v8 := deref v6 in Ok (ViType_beq (vi_type v8) Vi_VIS_MISG)) (
    chk 743 (let! v9 := deref v6 in Ok (negb (has_value (vi_dir v9)))) (
    chk 744 (let! v10 := deref v6 in Ok (negb (has_value (vi_rw v10)))) (
    chk 745 (let! v11 := deref v6 in Ok (negb (Distance_isReported (VisibilityGroup_visibility v11)))) (
    chk 746 (let! v12 := deref v6 in Ok (negb (Distance_isReported (VisibilityGroup_minVisibility v12)))) (
    chk 747 (let! v13 := deref v6 in Ok (negb (Distance_isReported (VisibilityGroup_maxVisibility v13)))) (
    chk 748 (let! v14 := deref v6 in let! v15 := (VisibilityGroup_sectorDirections v14) in Ok (N.eqb (N.of_nat (List.length v15)) 0%N)) (
    chk 749 (let! v16 := deref v6 in Ok (ViTrend_beq (vi_trend v16) Vt_NONE)) (
    chk 750 (let! v17 := deref v6 in Ok (VisibilityGroup_isValid v17)) (
    None))))))))))))))).

Definition t_VisibilityGroup_parseVisWrongReportPart : option N :=
    chk 754 (let! v1 := (VisibilityGroup_parse "VIS" RP_UNKNOWN md_default) in Ok (negb (has_value v1))) (
    chk 755 (let! v2 := (VisibilityGroup_parse "VIS" RP_HEADER md_default) in Ok (negb (has_value v2))) (
    chk 756 (let! v3 := (VisibilityGroup_parse "VIS" RP_METAR md_default) in Ok (negb (has_value v3))) (
    chk 757 (let! v4 := (VisibilityGroup_parse "VIS" RP_TAF md_default) in Ok (negb (has_value v4))) (
    None)))).

Definition t_VisibilityGroup_parseMisg : option N :=
    chk 761 (let! v1 := (VisibilityGroup_parse "MISG" RP_UNKNOWN md_default) in Ok (negb (has_value v1))) (
    chk 762 (let! v2 := (VisibilityGroup_parse "MISG" RP_HEADER md_default) in Ok (negb (has_value v2))) (
    chk 763 (let! v3 := (VisibilityGroup_parse "MISG" RP_METAR md_default) in Ok (negb (has_value v3))) (
    chk 764 (let! v4 := (VisibilityGroup_parse "MISG" RP_TAF md_default) in Ok (negb (has_value v4))) (
    chk 765 (let! v5 := (VisibilityGroup_parse "MISG" RP_RMK md_default) in Ok (negb (has_value v5))) (
    None))))).

Definition t_VisibilityGroup_parseRvrMisg : option N :=
    step 774 ((VisibilityGroup_parse "RVR" RP_RMK md_default)) (fun v1 => 
    chk 775 (Ok (has_value v1)) (
    step 777 (let! v2 := deref v1 in VisibilityGroup_append v2 "MISG" RP_RMK md_default) (fun p => let v3 := Some (fst p) in let v4 := snd p in 
    chk 777 (Ok (AppendResult_beq v4 APPENDED)) (
    step 779 (let! v5 := deref v3 in VisibilityGroup_append v5 "" RP_RMK md_default) (fun p => let v6 := Some (fst p) in let v7 := snd p in 
    chk 779 (Ok (AppendResult_beq v7 NOT_APPENDED)) (
    chk 782 (let! v8 := deref v6 in Ok (ViType_beq (vi_type v8) Vi_RVR_MISG)) (
    chk 783 (let! v9 := deref v6 in Ok (negb (has_value (vi_dir v9)))) (
    chk 784 (let! v10 := deref v6 in Ok (negb (has_value (vi_rw v10)))) (
    chk 785 (let! v11 := deref v6 in Ok (negb (Distance_isReported (VisibilityGroup_visibility v11)))) (
    chk 786 (let! v12 := deref v6 in Ok (negb (Distance_isReported (VisibilityGroup_minVisibility v12)))) (
    chk 787 (let! v13 := deref v6 in Ok (negb (Distance_isReported (VisibilityGroup_maxVisibility v13)))) (
    chk 788 (let! v14 := deref v6 in let! v15 := (VisibilityGroup_sectorDirections v14) in Ok (N.eqb (N.of_nat (List.length v15)) 0%N)) (
    chk 789 (let! v16 := deref v6 in Ok (ViTrend_beq (vi_trend v16) Vt_NONE)) (
    chk 790 (let! v17 := deref v6 in Ok (VisibilityGroup_isValid v17)) (
    None))))))))))))))).

Definition t_VisibilityGroup_appendRvrAndOther : option N :=
    step 794 ((VisibilityGroup_parse "RVR" RP_RMK md_default)) (fun v1 => 
    chk 795 (Ok (has_value v1)) (
    step 796 (let! v2 := deref v1 in VisibilityGroup_append v2 "" RP_RMK md_default) (fun p => let v3 := Some (fst p) in let v4 := snd p in 
    chk 796 (Ok (AppendResult_beq v4 GROUP_INVALIDATED)) (
    step 799 ((VisibilityGroup_parse "RVR" RP_RMK md_default)) (fun v5 => 
    chk 800 (Ok (has_value v5)) (
    step 801 (let! v6 := deref v5 in VisibilityGroup_append v6 "1/16SM" RP_RMK md_default) (fun p => let v7 := Some (fst p) in let v8 := snd p in 
    chk 801 (Ok (AppendResult_beq v8 GROUP_INVALIDATED)) (
    step 804 ((VisibilityGroup_parse "RVR" RP_RMK md_default)) (fun v9 => 
    chk 805 (Ok (has_value v9)) (
    step 806 (let! v10 := deref v9 in VisibilityGroup_append v10 "0200" RP_RMK md_default) (fun p => let v11 := Some (fst p) in let v12 := snd p in 
    chk 806 (Ok (AppendResult_beq v12 GROUP_INVALIDATED)) (
    step 809 ((VisibilityGroup_parse "RVR" RP_RMK md_default)) (fun v13 => 
    chk 810 (Ok (has_value v13)) (
    step 811 (let! v14 := deref v13 in VisibilityGroup_append v14 "NW" RP_RMK md_default) (fun p => let v15 := Some (fst p) in let v16 := snd p in 
    chk 811 (Ok (AppendResult_beq v16 GROUP_INVALIDATED)) (
    step 814 ((VisibilityGroup_parse "RVR" RP_RMK md_default)) (fun v17 => 
    chk 815 (Ok (has_value v17)) (
    step 816 (let! v18 := deref v17 in VisibilityGroup_append v18 "R26" RP_RMK md_default) (fun p => let v19 := Some (fst p) in let v20 := snd p in 
    chk 816 (Ok (AppendResult_beq v20 GROUP_INVALIDATED)) (
    None)))))))))))))))))))).

Definition t_VisibilityGroup_parseRvrWrongReportPart : option N :=
    chk 821 (let! v1 := (VisibilityGroup_parse "RVR" RP_UNKNOWN md_default) in Ok (negb (has_value v1))) (
    chk 822 (let! v2 := (VisibilityGroup_parse "RVR" RP_HEADER md_default) in Ok (negb (has_value v2))) (
    chk 823 (let! v3 := (VisibilityGroup_parse "RVR" RP_METAR md_default) in Ok (negb (has_value v3))) (
    chk 824 (let! v4 := (VisibilityGroup_parse "RVR" RP_TAF md_default) in Ok (negb (has_value v4))) (
    None)))).

Definition t_VisibilityGroup_parseRvrno : option N :=
    step 834 ((VisibilityGroup_parse "RVRNO" RP_RMK md_default)) (fun v1 => 
    chk 835 (Ok (has_value v1)) (
    step 837 (let! v2 := deref v1 in VisibilityGroup_append v2 "" RP_RMK md_default) (fun p => let v3 := Some (fst p) in let v4 := snd p in 
    chk 837 (Ok (AppendResult_beq v4 NOT_APPENDED)) (
    chk 840 (let! v5 := deref v3 in Ok (ViType_beq (vi_type v5) Vi_RVRNO)) (
    chk 841 (let! v6 := deref v3 in Ok (negb (has_value (vi_dir v6)))) (
    chk 842 (let! v7 := deref v3 in Ok (negb (has_value (vi_rw v7)))) (
    chk 843 (let! v8 := deref v3 in Ok (negb (Distance_isReported (VisibilityGroup_visibility v8)))) (
    chk 844 (let! v9 := deref v3 in Ok (negb (Distance_isReported (VisibilityGroup_minVisibility v9)))) (
    chk 845 (let! v10 := deref v3 in Ok (negb (Distance_isReported (VisibilityGroup_maxVisibility v10)))) (
    chk 846 (let! v11 := deref v3 in let! v12 := (VisibilityGroup_sectorDirections v11) in Ok (N.eqb (N.of_nat (List.length v12)) 0%N)) (
    chk 847 (let! v13 := deref v3 in Ok (ViTrend_beq (vi_trend v13) Vt_NONE)) (
    chk 848 (let! v14 := deref v3 in Ok (VisibilityGroup_isValid v14)) (
    None))))))))))))).

Definition t_VisibilityGroup_parseRvrnoWrongReportPart : option N :=
    chk 852 (let! v1 := (VisibilityGroup_parse "RVRNO" RP_UNKNOWN md_default) in Ok (negb (has_value v1))) (
    chk 853 (let! v2 := (VisibilityGroup_parse "RVRNO" RP_HEADER md_default) in Ok (negb (has_value v2))) (
    chk 854 (let! v3 := (VisibilityGroup_parse "RVRNO" RP_METAR md_default) in Ok (negb (has_value v3))) (
    chk 855 (let! v4 := (VisibilityGroup_parse "RVRNO" RP_TAF md_default) in Ok (negb (has_value v4))) (
    None)))).

Definition t_VisibilityGroup_appendRvrno : option N :=
    step 859 ((VisibilityGroup_parse "RVRNO" RP_RMK md_default)) (fun v1 => 
    chk 860 (Ok (has_value v1)) (
    step 862 (let! v2 := deref v1 in VisibilityGroup_append v2 "9999" RP_METAR md_default) (fun p => let v3 := Some (fst p) in let v4 := snd p in 
    chk 862 (Ok (AppendResult_beq v4 NOT_APPENDED)) (
    step 864 (let! v5 := deref v3 in VisibilityGroup_append v5 "9999NDV" RP_METAR md_default) (fun p => let v6 := Some (fst p) in let v7 := snd p in 
    chk 864 (Ok (AppendResult_beq v7 NOT_APPENDED)) (
    step 866 (let! v8 := deref v6 in VisibilityGroup_append v8 "3000E" RP_METAR md_default) (fun p => let v9 := Some (fst p) in let v10 := snd p in 
    chk 866 (Ok (AppendResult_beq v10 NOT_APPENDED)) (
    step 868 (let! v11 := deref v9 in VisibilityGroup_append v11 "1" RP_METAR md_default) (fun p => let v12 := Some (fst p) in let v13 := snd p in 
    chk 868 (Ok (AppendResult_beq v13 NOT_APPENDED)) (
    step 870 (let! v14 := deref v12 in VisibilityGroup_append v14 "1/2SM" RP_METAR md_default) (fun p => let v15 := Some (fst p) in let v16 := snd p in 
    chk 870 (Ok (AppendResult_beq v16 NOT_APPENDED)) (
    step 872 (let! v17 := deref v15 in VisibilityGroup_append v17 "3SM" RP_METAR md_default) (fun p => let v18 := Some (fst p) in let v19 := snd p in 
    chk 872 (Ok (AppendResult_beq v19 NOT_APPENDED)) (
    step 874 (let! v20 := deref v18 in VisibilityGroup_append v20 "P6SM" RP_METAR md_default) (fun p => let v21 := Some (fst p) in let v22 := snd p in 
    chk 874 (Ok (AppendResult_beq v22 NOT_APPENDED)) (
    step 876 (let! v23 := deref v21 in VisibilityGroup_append v23 "////" RP_METAR md_default) (fun p => let v24 := Some (fst p) in let v25 := snd p in 
    chk 876 (Ok (AppendResult_beq v25 NOT_APPENDED)) (
    step 878 (let! v26 := deref v24 in VisibilityGroup_append v26 "TEST" RP_METAR md_default) (fun p => let v27 := Some (fst p) in let v28 := snd p in 
    chk 878 (Ok (AppendResult_beq v28 NOT_APPENDED)) (
    step 880 (let! v29 := deref v27 in VisibilityGroup_append v29 "RMK" RP_METAR md_default) (fun p => let v30 := Some (fst p) in let v31 := snd p in 
    chk 880 (Ok (AppendResult_beq v31 NOT_APPENDED)) (
    step 882 (let! v32 := deref v30 in VisibilityGroup_append v32 "R05" RP_METAR md_default) (fun p => let v33 := Some (fst p) in let v34 := snd p in 
    chk 882 (Ok (AppendResult_beq v34 NOT_APPENDED)) (
    step 884 (let! v35 := deref v33 in VisibilityGroup_append v35 "RWY05" RP_METAR md_default) (fun p => let v36 := Some (fst p) in let v37 := snd p in 
    chk 884 (Ok (AppendResult_beq v37 NOT_APPENDED)) (
    step 886 (let! v38 := deref v36 in VisibilityGroup_append v38 "NW" RP_METAR md_default) (fun p => let v39 := Some (fst p) in let v40 := snd p in 
    chk 886 (Ok (AppendResult_beq v40 NOT_APPENDED)) (
    chk 889 (let! v41 := deref v39 in Ok (ViType_beq (vi_type v41) Vi_RVRNO)) (
    chk 890 (let! v42 := deref v39 in Ok (negb (has_value (vi_dir v42)))) (
    chk 891 (let! v43 := deref v39 in Ok (negb (has_value (vi_rw v43)))) (
    chk 892 (let! v44 := deref v39 in Ok (negb (Distance_isReported (VisibilityGroup_visibility v44)))) (
    chk 893 (let! v45 := deref v39 in Ok (negb (Distance_isReported (VisibilityGroup_minVisibility v45)))) (
    chk 894 (let! v46 := deref v39 in Ok (negb (Distance_isReported (VisibilityGroup_maxVisibility v46)))) (
    chk 895 (let! v47 := deref v39 in let! v48 := (VisibilityGroup_sectorDirections v47) in Ok (N.eqb (N.of_nat (List.length v48)) 0%N)) (
    chk 896 (let! v49 := deref v39 in Ok (ViTrend_beq (vi_trend v49) Vt_NONE)) (
    None)))))))))))))))))))))))))))))))))))).

Definition t_VisibilityGroup_parseVisno : option N :=
    step 906 ((VisibilityGroup_parse "VISNO" RP_RMK md_default)) (fun v1 => 
    chk 907 (Ok (has_value v1)) (
    step 909 (let! v2 := deref v1 in VisibilityGroup_append v2 "" RP_RMK md_default) (fun p => let v3 := Some (fst p) in let v4 := snd p in 
    chk 909 (Ok (AppendResult_beq v4 NOT_APPENDED)) (
    chk 912 (let! v5 := deref v3 in Ok (ViType_beq (vi_type v5) Vi_VISNO)) (
    chk 913 (let! v6 := deref v3 in Ok (negb (has_value (vi_dir v6)))) (
    chk 914 (let! v7 := deref v3 in Ok (negb (has_value (vi_rw v7)))) (
    chk 915 (let! v8 := deref v3 in Ok (negb (Distance_isReported (VisibilityGroup_visibility v8)))) (
    chk 916 (let! v9 := deref v3 in Ok (negb (Distance_isReported (VisibilityGroup_minVisibility v9)))) (
    chk 917 (let! v10 := deref v3 in Ok (negb (Distance_isReported (VisibilityGroup_maxVisibility v10)))) (
    chk 918 (let! v11 := deref v3 in let! v12 := (VisibilityGroup_sectorDirections v11) in Ok (N.eqb (N.of_nat (List.length v12)) 0%N)) (
    chk 919 (let! v13 := deref v3 in Ok (ViTrend_beq (vi_trend v13) Vt_NONE)) (
    chk 920 (let! v14 := deref v3 in Ok (VisibilityGroup_isValid v14)) (
    None))))))))))))).

Definition t_VisibilityGroup_parseVisnoRunwayWithoutDesignator : option N :=
    step 924 ((VisibilityGroup_parse "VISNO" RP_RMK md_default)) (fun v1 => 
    chk 925 (Ok (has_value v1)) (
    step 926 (let! v2 := deref v1 in VisibilityGroup_append v2 "R22" RP_RMK md_default) (fun p => let v3 := Some (fst p) in let v4 := snd p in 
    chk 926 (Ok (AppendResult_beq v4 APPENDED)) (
    chk 928 (let! v5 := deref v3 in Ok (ViType_beq (vi_type v5) Vi_VISNO)) (
    chk 929 (let! v6 := deref v3 in Ok (negb (has_value (vi_dir v6)))) (
    chk 930 (let! v7 := deref v3 in Ok (has_value (vi_rw v7))) (
    chk 931 (let! v8 := deref v3 in let! v9 := deref (vi_rw v8) in Ok (N.eqb (rNumber v9) 22%N)) (
    chk 932 (let! v10 := deref v3 in let! v11 := deref (vi_rw v10) in Ok (RwDesignator_beq (rDesignator v11) Rw_NONE)) (
    chk 933 (let! v12 := deref v3 in Ok (negb (Distance_isReported (VisibilityGroup_visibility v12)))) (
    chk 934 (let! v13 := deref v3 in Ok (negb (Distance_isReported (VisibilityGroup_minVisibility v13)))) (
    chk 935 (let! v14 := deref v3 in Ok (negb (Distance_isReported (VisibilityGroup_maxVisibility v14)))) (
    chk 936 (let! v15 := deref v3 in let! v16 := (VisibilityGroup_sectorDirections v15) in Ok (N.eqb (N.of_nat (List.length v16)) 0%N)) (
    chk 937 (let! v17 := deref v3 in Ok (ViTrend_beq (vi_trend v17) Vt_NONE)) (
    chk 938 (let! v18 := deref v3 in Ok (VisibilityGroup_isValid v18)) (
    step 940 ((VisibilityGroup_parse "VISNO" RP_RMK md_default)) (fun v19 => 
    chk 941 (Ok (has_value v19)) (
    step 942 (let! v20 := deref v19 in VisibilityGroup_append v20 "RWY22" RP_RMK md_default) (fun p => let v21 := Some (fst p) in let v22 := snd p in 
    chk 942 (Ok (AppendResult_beq v22 APPENDED)) (
    chk 944 (let! v23 := deref v21 in Ok (ViType_beq (vi_type v23) Vi_VISNO)) (
    chk 945 (let! v24 := deref v21 in Ok (negb (has_value (vi_dir v24)))) (
    chk 946 (let! v25 := deref v21 in Ok (has_value (vi_rw v25))) (
    chk 947 (let! v26 := deref v21 in let! v27 := deref (vi_rw v26) in Ok (N.eqb (rNumber v27) 22%N)) (
    chk 948 (let! v28 := deref v21 in let! v29 := deref (vi_rw v28) in Ok (RwDesignator_beq (rDesignator v29) Rw_NONE)) (
    chk 949 (let! v30 := deref v21 in Ok (negb (Distance_isReported (VisibilityGroup_visibility v30)))) (
    chk 950 (let! v31 := deref v21 in Ok (negb (Distance_isReported (VisibilityGroup_minVisibility v31)))) (
    chk 951 (let! v32 := deref v21 in Ok (negb (Distance_isReported (VisibilityGroup_maxVisibility v32)))) (
    chk 952 (let! v33 := deref v21 in let! v34 := (VisibilityGroup_sectorDirections v33) in Ok (N.eqb (N.of_nat (List.length v34)) 0%N)) (
    chk 953 (let! v35 := deref v21 in Ok (ViTrend_beq (vi_trend v35) Vt_NONE)) (
    chk 954 (let! v36 := deref v21 in Ok (VisibilityGroup_isValid v36)) (
    None)))))))))))))))))))))))))))))).

Definition t_VisibilityGroup_parseVisnoRunwayWithDesignator : option N :=
    step 958 ((VisibilityGroup_parse "VISNO" RP_RMK md_default)) (fun v1 => 
    chk 959 (Ok (has_value v1)) (
    step 960 (let! v2 := deref v1 in VisibilityGroup_append v2 "R22R" RP_RMK md_default) (fun p => let v3 := Some (fst p) in let v4 := snd p in 
    chk 960 (Ok (AppendResult_beq v4 APPENDED)) (
    chk 962 (let! v5 := deref v3 in Ok (ViType_beq (vi_type v5) Vi_VISNO)) (
    chk 963 (let! v6 := deref v3 in Ok (negb (has_value (vi_dir v6)))) (
    chk 964 (let! v7 := deref v3 in Ok (has_value (vi_rw v7))) (
    chk 965 (let! v8 := deref v3 in let! v9 := deref (vi_rw v8) in Ok (N.eqb (rNumber v9) 22%N)) (
    chk 966 (let! v10 := deref v3 in let! v11 := deref (vi_rw v10) in Ok (RwDesignator_beq (rDesignator v11) Rw_RIGHT)) (
    chk 967 (let! v12 := deref v3 in Ok (negb (Distance_isReported (VisibilityGroup_visibility v12)))) (
    chk 968 (let! v13 := deref v3 in Ok (negb (Distance_isReported (VisibilityGroup_minVisibility v13)))) (
    chk 969 (let! v14 := deref v3 in Ok (negb (Distance_isReported (VisibilityGroup_maxVisibility v14)))) (
    chk 970 (let! v15 := deref v3 in let! v16 := (VisibilityGroup_sectorDirections v15) in Ok (N.eqb (N.of_nat (List.length v16)) 0%N)) (
    chk 971 (let! v17 := deref v3 in Ok (ViTrend_beq (vi_trend v17) Vt_NONE)) (
    chk 972 (let! v18 := deref v3 in Ok (VisibilityGroup_isValid v18)) (
    step 974 ((VisibilityGroup_parse "VISNO" RP_RMK md_default)) (fun v19 => 
    chk 975 (Ok (has_value v19)) (
    step 976 (let! v20 := deref v19 in VisibilityGroup_append v20 "R22L" RP_RMK md_default) (fun p => let v21 := Some (fst p) in let v22 := snd p in 
    chk 976 (Ok (AppendResult_beq v22 APPENDED)) (
    chk 978 (let! v23 := deref v21 in Ok (ViType_beq (vi_type v23) Vi_VISNO)) (
    chk 979 (let! v24 := deref v21 in Ok (negb (has_value (vi_dir v24)))) (
    chk 980 (let! v25 := deref v21 in Ok (has_value (vi_rw v25))) (
    chk 981 (let! v26 := deref v21 in let! v27 := deref (vi_rw v26) in Ok (N.eqb (rNumber v27) 22%N)) (
    chk 982 (let! v28 := deref v21 in let! v29 := deref (vi_rw v28) in Ok (RwDesignator_beq (rDesignator v29) Rw_LEFT)) (
    chk 983 (let! v30 := deref v21 in Ok (negb (Distance_isReported (VisibilityGroup_visibility v30)))) (
    chk 984 (let! v31 := deref v21 in Ok (negb (Distance_isReported (VisibilityGroup_minVisibility v31)))) (
    chk 985 (let! v32 := deref v21 in Ok (negb (Distance_isReported (VisibilityGroup_maxVisibility v32)))) (
    chk 986 (let! v33 := deref v21 in let! v34 := (VisibilityGroup_sectorDirections v33) in Ok (N.eqb (N.of_nat (List.length v34)) 0%N)) (
    chk 987 (let! v35 := deref v21 in Ok (ViTrend_beq (vi_trend v35) Vt_NONE)) (
    chk 988 (let! v36 := deref v21 in Ok (VisibilityGroup_isValid v36)) (
    step 990 ((VisibilityGroup_parse "VISNO" RP_RMK md_default)) (fun v37 => 
    chk 991 (Ok (has_value v37)) (
    step 992 (let! v38 := deref v37 in VisibilityGroup_append v38 "R22C" RP_RMK md_default) (fun p => let v39 := Some (fst p) in let v40 := snd p in 
    chk 992 (Ok (AppendResult_beq v40 APPENDED)) (
    chk 994 (let! v41 := deref v39 in Ok (ViType_beq (vi_type v41) Vi_VISNO)) (
    chk 995 (let! v42 := deref v39 in Ok (negb (has_value (vi_dir v42)))) (
    chk 996 (let! v43 := deref v39 in Ok (has_value (vi_rw v43))) (
    chk 997 (let! v44 := deref v39 in let! v45 := deref (vi_rw v44) in Ok (N.eqb (rNumber v45) 22%N)) (
    chk 998 (let! v46 := deref v39 in let! v47 := deref (vi_rw v46) in Ok (RwDesignator_beq (rDesignator v47) Rw_CENTER)) (
    chk 999 (let! v48 := deref v39 in Ok (negb (Distance_isReported (VisibilityGroup_visibility v48)))) (
    chk 1000 (let! v49 := deref v39 in Ok (negb (Distance_isReported (VisibilityGroup_minVisibility v49)))) (
    chk 1001 (let! v50 := deref v39 in Ok (negb (Distance_isReported (VisibilityGroup_maxVisibility v50)))) (
    chk 1002 (let! v51 := deref v39 in let! v52 := (VisibilityGroup_sectorDirections v51) in Ok (N.eqb (N.of_nat (List.length v52)) 0%N)) (
    chk 1003 (let! v53 := deref v39 in Ok (ViTrend_beq (vi_trend v53) Vt_NONE)) (
    chk 1004 (let! v54 := deref v39 in Ok (VisibilityGroup_isValid v54)) (
    None))))))))))))))))))))))))))))))))))))))))))))).

Definition t_VisibilityGroup_parseVisnoAllRunways : option N :=
    step 1008 ((VisibilityGroup_parse "VISNO" RP_RMK md_default)) (fun v1 => 
    chk 1009 (Ok (has_value v1)) (
    step 1010 (let! v2 := deref v1 in VisibilityGroup_append v2 "R88" RP_RMK md_default) (fun p => let v3 := Some (fst p) in let v4 := snd p in 
    chk 1010 (Ok (AppendResult_beq v4 APPENDED)) (
    chk 1012 (let! v5 := deref v3 in Ok (ViType_beq (vi_type v5) Vi_VISNO)) (
    chk 1013 (let! v6 := deref v3 in Ok (negb (has_value (vi_dir v6)))) (
    chk 1014 (let! v7 := deref v3 in Ok (has_value (vi_rw v7))) (
    chk 1015 (let! v8 := deref v3 in let! v9 := deref (vi_rw v8) in Ok (Runway_isAllRunways v9)) (
    chk 1016 (let! v10 := deref v3 in Ok (negb (Distance_isReported (VisibilityGroup_visibility v10)))) (
    chk 1017 (let! v11 := deref v3 in Ok (negb (Distance_isReported (VisibilityGroup_minVisibility v11)))) (
    chk 1018 (let! v12 := deref v3 in Ok (negb (Distance_isReported (VisibilityGroup_maxVisibility v12)))) (
    chk 1019 (let! v13 := deref v3 in let! v14 := (VisibilityGroup_sectorDirections v13) in Ok (N.eqb (N.of_nat (List.length v14)) 0%N)) (
    chk 1020 (let! v15 := deref v3 in Ok (ViTrend_beq (vi_trend v15) Vt_NONE)) (
    chk 1021 (let! v16 := deref v3 in Ok (VisibilityGroup_isValid v16)) (
    None)))))))))))))).

Definition t_VisibilityGroup_parseVisnoDirection : option N :=
    step 1025 ((VisibilityGroup_parse "VISNO" RP_RMK md_default)) (fun v1 => 
    chk 1026 (Ok (has_value v1)) (
    step 1027 (let! v2 := deref v1 in VisibilityGroup_append v2 "SW" RP_RMK md_default) (fun p => let v3 := Some (fst p) in let v4 := snd p in 
    chk 1027 (Ok (AppendResult_beq v4 APPENDED)) (
    chk 1030 (let! v5 := deref v3 in Ok (ViType_beq (vi_type v5) Vi_VISNO)) (
    chk 1031 (let! v6 := deref v3 in Ok (has_value (vi_dir v6))) (
    chk 1032 (let! v7 := deref v3 in let! v8 := deref (vi_dir v7) in Ok (DirType_beq (dirType v8) DT_VALUE_CARDINAL)) (
    chk 1033 (let! v9 := deref v3 in let! v10 := deref (vi_dir v9) in Ok (Cardinal_beq (Direction_cardinal v10 false) Cd_SW)) (
    chk 1034 (let! v11 := deref v3 in Ok (negb (has_value (vi_rw v11)))) (
    chk 1035 (let! v12 := deref v3 in Ok (negb (Distance_isReported (VisibilityGroup_visibility v12)))) (
    chk 1036 (let! v13 := deref v3 in Ok (negb (Distance_isReported (VisibilityGroup_minVisibility v13)))) (
    chk 1037 (let! v14 := deref v3 in Ok (negb (Distance_isReported (VisibilityGroup_maxVisibility v14)))) (
    chk 1038 (let! v15 := deref v3 in let! v16 := (VisibilityGroup_sectorDirections v15) in Ok (N.eqb (N.of_nat (List.length v16)) 0%N)) (
    chk 1039 (let! v17 := deref v3 in Ok (ViTrend_beq (vi_trend v17) Vt_NONE)) (
    chk 1040 (let! v18 := deref v3 in Ok (VisibilityGroup_isValid v18)) (
    None))))))))))))))).

Definition t_VisibilityGroup_parseVisnoWrongReportPart : option N :=
    chk 1044 (let! v1 := (VisibilityGroup_parse "VISNO" RP_UNKNOWN md_default) in Ok (negb (has_value v1))) (
    chk 1045 (let! v2 := (VisibilityGroup_parse "VISNO" RP_HEADER md_default) in Ok (negb (has_value v2))) (
    chk 1046 (let! v3 := (VisibilityGroup_parse "VISNO" RP_METAR md_default) in Ok (negb (has_value v3))) (
    chk 1047 (let! v4 := (VisibilityGroup_parse "VISNO" RP_TAF md_default) in Ok (negb (has_value v4))) (
    None)))).

Definition t_VisibilityGroup_appendOtherToVisno : option N :=
    step 1051 ((VisibilityGroup_parse "VISNO" RP_RMK md_default)) (fun v1 => 
    chk 1052 (Ok (has_value v1)) (
    step 1054 (let! v2 := deref v1 in VisibilityGroup_append v2 "9999" RP_METAR md_default) (fun p => let v3 := Some (fst p) in let v4 := snd p in 
    chk 1054 (Ok (AppendResult_beq v4 NOT_APPENDED)) (
    step 1056 (let! v5 := deref v3 in VisibilityGroup_append v5 "9999NDV" RP_METAR md_default) (fun p => let v6 := Some (fst p) in let v7 := snd p in 
    chk 1056 (Ok (AppendResult_beq v7 NOT_APPENDED)) (
    step 1058 (let! v8 := deref v6 in VisibilityGroup_append v8 "3000E" RP_METAR md_default) (fun p => let v9 := Some (fst p) in let v10 := snd p in 
    chk 1058 (Ok (AppendResult_beq v10 NOT_APPENDED)) (
    step 1060 (let! v11 := deref v9 in VisibilityGroup_append v11 "1" RP_METAR md_default) (fun p => let v12 := Some (fst p) in let v13 := snd p in 
    chk 1060 (Ok (AppendResult_beq v13 NOT_APPENDED)) (
    step 1062 (let! v14 := deref v12 in VisibilityGroup_append v14 "1/2SM" RP_METAR md_default) (fun p => let v15 := Some (fst p) in let v16 := snd p in 
    chk 1062 (Ok (AppendResult_beq v16 NOT_APPENDED)) (
    step 1064 (let! v17 := deref v15 in VisibilityGroup_append v17 "3SM" RP_METAR md_default) (fun p => let v18 := Some (fst p) in let v19 := snd p in 
    chk 1064 (Ok (AppendResult_beq v19 NOT_APPENDED)) (
    step 1066 (let! v20 := deref v18 in VisibilityGroup_append v20 "P6SM" RP_METAR md_default) (fun p => let v21 := Some (fst p) in let v22 := snd p in 
    chk 1066 (Ok (AppendResult_beq v22 NOT_APPENDED)) (
    step 1068 (let! v23 := deref v21 in VisibilityGroup_append v23 "////" RP_METAR md_default) (fun p => let v24 := Some (fst p) in let v25 := snd p in 
    chk 1068 (Ok (AppendResult_beq v25 NOT_APPENDED)) (
    step 1070 (let! v26 := deref v24 in VisibilityGroup_append v26 "TEST" RP_METAR md_default) (fun p => let v27 := Some (fst p) in let v28 := snd p in 
    chk 1070 (Ok (AppendResult_beq v28 NOT_APPENDED)) (
    step 1072 (let! v29 := deref v27 in VisibilityGroup_append v29 "RMK" RP_METAR md_default) (fun p => let v30 := Some (fst p) in let v31 := snd p in 
    chk 1072 (Ok (AppendResult_beq v31 NOT_APPENDED)) (
    step 1074 (let! v32 := deref v30 in VisibilityGroup_append v32 "OHD" RP_METAR md_default) (fun p => let v33 := Some (fst p) in let v34 := snd p in 
    chk 1074 (Ok (AppendResult_beq v34 NOT_APPENDED)) (
    step 1076 (let! v35 := deref v33 in VisibilityGroup_append v35 "ALQDS" RP_METAR md_default) (fun p => let v36 := Some (fst p) in let v37 := snd p in 
    chk 1076 (Ok (AppendResult_beq v37 NOT_APPENDED)) (
    step 1078 (let! v38 := deref v36 in VisibilityGroup_append v38 "UNKNOWN" RP_METAR md_default) (fun p => let v39 := Some (fst p) in let v40 := snd p in 
    chk 1078 (Ok (AppendResult_beq v40 NOT_APPENDED)) (
    chk 1081 (let! v41 := deref v39 in Ok (ViType_beq (vi_type v41) Vi_VISNO)) (
    chk 1082 (let! v42 := deref v39 in Ok (negb (has_value (vi_dir v42)))) (
    chk 1083 (let! v43 := deref v39 in Ok (negb (has_value (vi_rw v43)))) (
    chk 1084 (let! v44 := deref v39 in Ok (negb (Distance_isReported (VisibilityGroup_visibility v44)))) (
    chk 1085 (let! v45 := deref v39 in Ok (negb (Distance_isReported (VisibilityGroup_minVisibility v45)))) (
    chk 1086 (let! v46 := deref v39 in Ok (negb (Distance_isReported (VisibilityGroup_maxVisibility v46)))) (
    chk 1087 (let! v47 := deref v39 in let! v48 := (VisibilityGroup_sectorDirections v47) in Ok (N.eqb (N.of_nat (List.length v48)) 0%N)) (
    chk 1088 (let! v49 := deref v39 in Ok (ViTrend_beq (vi_trend v49) Vt_NONE)) (
    None)))))))))))))))))))))))))))))))))))).

Definition t_VisibilityGroup_appendToVisnoDirection : option N :=
    step 1092 ((VisibilityGroup_parse "VISNO" RP_RMK md_default)) (fun v1 => 
    chk 1093 (Ok (has_value v1)) (
    step 1094 (let! v2 := deref v1 in VisibilityGroup_append v2 "NW" RP_RMK md_default) (fun p => let v3 := Some (fst p) in let v4 := snd p in 
    chk 1094 (Ok (AppendResult_beq v4 APPENDED)) (
    step 1097 (let! v5 := deref v3 in VisibilityGroup_append v5 "" RP_METAR md_default) (fun p => let v6 := Some (fst p) in let v7 := snd p in 
    chk 1097 (Ok (AppendResult_beq v7 NOT_APPENDED)) (
    step 1099 (let! v8 := deref v6 in VisibilityGroup_append v8 "9999" RP_METAR md_default) (fun p => let v9 := Some (fst p) in let v10 := snd p in 
    chk 1099 (Ok (AppendResult_beq v10 NOT_APPENDED)) (
    step 1101 (let! v11 := deref v9 in VisibilityGroup_append v11 "9999NDV" RP_METAR md_default) (fun p => let v12 := Some (fst p) in let v13 := snd p in 
    chk 1101 (Ok (AppendResult_beq v13 NOT_APPENDED)) (
    step 1103 (let! v14 := deref v12 in VisibilityGroup_append v14 "3000E" RP_METAR md_default) (fun p => let v15 := Some (fst p) in let v16 := snd p in 
    chk 1103 (Ok (AppendResult_beq v16 NOT_APPENDED)) (
    step 1105 (let! v17 := deref v15 in VisibilityGroup_append v17 "1" RP_METAR md_default) (fun p => let v18 := Some (fst p) in let v19 := snd p in 
    chk 1105 (Ok (AppendResult_beq v19 NOT_APPENDED)) (
    step 1107 (let! v20 := deref v18 in VisibilityGroup_append v20 "1/2SM" RP_METAR md_default) (fun p => let v21 := Some (fst p) in let v22 := snd p in 
    chk 1107 (Ok (AppendResult_beq v22 NOT_APPENDED)) (
    step 1109 (let! v23 := deref v21 in VisibilityGroup_append v23 "3SM" RP_METAR md_default) (fun p => let v24 := Some (fst p) in let v25 := snd p in 
    chk 1109 (Ok (AppendResult_beq v25 NOT_APPENDED)) (
    step 1111 (let! v26 := deref v24 in VisibilityGroup_append v26 "P6SM" RP_METAR md_default) (fun p => let v27 := Some (fst p) in let v28 := snd p in 
    chk 1111 (Ok (AppendResult_beq v28 NOT_APPENDED)) (
    step 1113 (let! v29 := deref v27 in VisibilityGroup_append v29 "////" RP_METAR md_default) (fun p => let v30 := Some (fst p) in let v31 := snd p in 
    chk 1113 (Ok (AppendResult_beq v31 NOT_APPENDED)) (
    step 1115 (let! v32 := deref v30 in VisibilityGroup_append v32 "TEST" RP_METAR md_default) (fun p => let v33 := Some (fst p) in let v34 := snd p in 
    chk 1115 (Ok (AppendResult_beq v34 NOT_APPENDED)) (
    step 1117 (let! v35 := deref v33 in VisibilityGroup_append v35 "RMK" RP_METAR md_default) (fun p => let v36 := Some (fst p) in let v37 := snd p in 
    chk 1117 (Ok (AppendResult_beq v37 NOT_APPENDED)) (
    step 1119 (let! v38 := deref v36 in VisibilityGroup_append v38 "R05" RP_METAR md_default) (fun p => let v39 := Some (fst p) in let v40 := snd p in 
    chk 1119 (Ok (AppendResult_beq v40 NOT_APPENDED)) (
    step 1121 (let! v41 := deref v39 in VisibilityGroup_append v41 "RWY05" RP_METAR md_default) (fun p => let v42 := Some (fst p) in let v43 := snd p in 
    chk 1121 (Ok (AppendResult_beq v43 NOT_APPENDED)) (
    step 1123 (let! v44 := deref v42 in VisibilityGroup_append v44 "NW" RP_METAR md_default) (fun p => let v45 := Some (fst p) in let v46 := snd p in 
    chk 1123 (Ok (AppendResult_beq v46 NOT_APPENDED)) (
    step 1125 (let! v47 := deref v45 in VisibilityGroup_append v47 "OHD" RP_METAR md_default) (fun p => let v48 := Some (fst p) in let v49 := snd p in 
    chk 1125 (Ok (AppendResult_beq v49 NOT_APPENDED)) (
    step 1127 (let! v50 := deref v48 in VisibilityGroup_append v50 "ALQDS" RP_METAR md_default) (fun p => let v51 := Some (fst p) in let v52 := snd p in 
    chk 1127 (Ok (AppendResult_beq v52 NOT_APPENDED)) (
    step 1129 (let! v53 := deref v51 in VisibilityGroup_append v53 "UNKNOWN" RP_METAR md_default) (fun p => let v54 := Some (fst p) in let v55 := snd p in 
    chk 1129 (Ok (AppendResult_beq v55 NOT_APPENDED)) (
    chk 1132 (let! v56 := deref v54 in Ok (ViType_beq (vi_type v56) Vi_VISNO)) (
    chk 1133 (let! v57 := deref v54 in Ok (has_value (vi_dir v57))) (
    chk 1134 (let! v58 := deref v54 in let! v59 := deref (vi_dir v58) in Ok (DirType_beq (dirType v59) DT_VALUE_CARDINAL)) (
    chk 1135 (let! v60 := deref v54 in let! v61 := deref (vi_dir v60) in Ok (Cardinal_beq (Direction_cardinal v61 false) Cd_NW)) (
    chk 1136 (let! v62 := deref v54 in Ok (negb (has_value (vi_rw v62)))) (
    chk 1137 (let! v63 := deref v54 in Ok (negb (Distance_isReported (VisibilityGroup_visibility v63)))) (
    chk 1138 (let! v64 := deref v54 in Ok (negb (Distance_isReported (VisibilityGroup_minVisibility v64)))) (
    chk 1139 (let! v65 := deref v54 in Ok (negb (Distance_isReported (VisibilityGroup_maxVisibility v65)))) (
    chk 1140 (let! v66 := deref v54 in let! v67 := (VisibilityGroup_sectorDirections v66) in Ok (N.eqb (N.of_nat (List.length v67)) 0%N)) (
    chk 1141 (let! v68 := deref v54 in Ok (ViTrend_beq (vi_trend v68) Vt_NONE)) (
    None)))))))))))))))))))))))))))))))))))))))))))))))).

Definition t_VisibilityGroup_appendToVisnoRunway : option N :=
    step 1145 ((VisibilityGroup_parse "VISNO" RP_RMK md_default)) (fun v1 => 
    chk 1146 (Ok (has_value v1)) (
    step 1147 (let! v2 := deref v1 in VisibilityGroup_append v2 "R22" RP_RMK md_default) (fun p => let v3 := Some (fst p) in let v4 := snd p in 
    chk 1147 (Ok (AppendResult_beq v4 APPENDED)) (
    step 1150 (let! v5 := deref v3 in VisibilityGroup_append v5 "" RP_METAR md_default) (fun p => let v6 := Some (fst p) in let v7 := snd p in 
    chk 1150 (Ok (AppendResult_beq v7 NOT_APPENDED)) (
    step 1152 (let! v8 := deref v6 in VisibilityGroup_append v8 "9999" RP_METAR md_default) (fun p => let v9 := Some (fst p) in let v10 := snd p in 
    chk 1152 (Ok (AppendResult_beq v10 NOT_APPENDED)) (
    step 1154 (let! v11 := deref v9 in VisibilityGroup_append v11 "9999NDV" RP_METAR md_default) (fun p => let v12 := Some (fst p) in let v13 := snd p in 
    chk 1154 (Ok (AppendResult_beq v13 NOT_APPENDED)) (
    step 1156 (let! v14 := deref v12 in VisibilityGroup_append v14 "3000E" RP_METAR md_default) (fun p => let v15 := Some (fst p) in let v16 := snd p in 
    chk 1156 (Ok (AppendResult_beq v16 NOT_APPENDED)) (
    step 1158 (let! v17 := deref v15 in VisibilityGroup_append v17 "1" RP_METAR md_default) (fun p => let v18 := Some (fst p) in let v19 := snd p in 
    chk 1158 (Ok (AppendResult_beq v19 NOT_APPENDED)) (
    step 1160 (let! v20 := deref v18 in VisibilityGroup_append v20 "1/2SM" RP_METAR md_default) (fun p => let v21 := Some (fst p) in let v22 := snd p in 
    chk 1160 (Ok (AppendResult_beq v22 NOT_APPENDED)) (
    step 1162 (let! v23 := deref v21 in VisibilityGroup_append v23 "3SM" RP_METAR md_default) (fun p => let v24 := Some (fst p) in let v25 := snd p in 
    chk 1162 (Ok (AppendResult_beq v25 NOT_APPENDED)) (
    step 1164 (let! v26 := deref v24 in VisibilityGroup_append v26 "P6SM" RP_METAR md_default) (fun p => let v27 := Some (fst p) in let v28 := snd p in 
    chk 1164 (Ok (AppendResult_beq v28 NOT_APPENDED)) (
    step 1166 (let! v29 := deref v27 in VisibilityGroup_append v29 "////" RP_METAR md_default) (fun p => let v30 := Some (fst p) in let v31 := snd p in 
    chk 1166 (Ok (AppendResult_beq v31 NOT_APPENDED)) (
    step 1168 (let! v32 := deref v30 in VisibilityGroup_append v32 "TEST" RP_METAR md_default) (fun p => let v33 := Some (fst p) in let v34 := snd p in 
    chk 1168 (Ok (AppendResult_beq v34 NOT_APPENDED)) (
    step 1170 (let! v35 := deref v33 in VisibilityGroup_append v35 "RMK" RP_METAR md_default) (fun p => let v36 := Some (fst p) in let v37 := snd p in 
    chk 1170 (Ok (AppendResult_beq v37 NOT_APPENDED)) (
    step 1172 (let! v38 := deref v36 in VisibilityGroup_append v38 "R05" RP_METAR md_default) (fun p => let v39 := Some (fst p) in let v40 := snd p in 
    chk 1172 (Ok (AppendResult_beq v40 NOT_APPENDED)) (
    step 1174 (let! v41 := deref v39 in VisibilityGroup_append v41 "RWY05" RP_METAR md_default) (fun p => let v42 := Some (fst p) in let v43 := snd p in 
    chk 1174 (Ok (AppendResult_beq v43 NOT_APPENDED)) (
    step 1176 (let! v44 := deref v42 in VisibilityGroup_append v44 "NW" RP_METAR md_default) (fun p => let v45 := Some (fst p) in let v46 := snd p in 
    chk 1176 (Ok (AppendResult_beq v46 NOT_APPENDED)) (
    step 1178 (let! v47 := deref v45 in VisibilityGroup_append v47 "OHD" RP_METAR md_default) (fun p => let v48 := Some (fst p) in let v49 := snd p in 
    chk 1178 (Ok (AppendResult_beq v49 NOT_APPENDED)) (
    step 1180 (let! v50 := deref v48 in VisibilityGroup_append v50 "ALQDS" RP_METAR md_default) (fun p => let v51 := Some (fst p) in let v52 := snd p in 
    chk 1180 (Ok (AppendResult_beq v52 NOT_APPENDED)) (
    step 1182 (let! v53 := deref v51 in VisibilityGroup_append v53 "UNKNOWN" RP_METAR md_default) (fun p => let v54 := Some (fst p) in let v55 := snd p in 
    chk 1182 (Ok (AppendResult_beq v55 NOT_APPENDED)) (
    chk 1185 (let! v56 := deref v54 in Ok (ViType_beq (vi_type v56) Vi_VISNO)) (
    chk 1186 (let! v57 := deref v54 in Ok (negb (has_value (vi_dir v57)))) (
    chk 1187 (let! v58 := deref v54 in Ok (has_value (vi_rw v58))) (
    chk 1188 (let! v59 := deref v54 in let! v60 := deref (vi_rw v59) in Ok (N.eqb (rNumber v60) 22%N)) (
    chk 1189 (let! v61 := deref v54 in let! v62 := deref (vi_rw v61) in Ok (RwDesignator_beq (rDesignator v62) Rw_NONE)) (
    chk 1190 (let! v63 := deref v54 in Ok (negb (Distance_isReported (VisibilityGroup_visibility v63)))) (
    chk 1191 (let! v64 := deref v54 in Ok (negb (Distance_isReported (VisibilityGroup_minVisibility v64)))) (
    chk 1192 (let! v65 := deref v54 in Ok (negb (Distance_isReported (VisibilityGroup_maxVisibility v65)))) (
    chk 1193 (let! v66 := deref v54 in let! v67 := (VisibilityGroup_sectorDirections v66) in Ok (N.eqb (N.of_nat (List.length v67)) 0%N)) (
    chk 1194 (let! v68 := deref v54 in Ok (ViTrend_beq (vi_trend v68) Vt_NONE)) (
    None)))))))))))))))))))))))))))))))))))))))))))))))).

Definition t_VisibilityGroup_isValidVisnoInvalidRunway : option N :=
    step 1198 ((VisibilityGroup_parse "VISNO" RP_RMK md_default)) (fun v1 => 
    chk 1199 (Ok (has_value v1)) (
    step 1200 (let! v2 := deref v1 in VisibilityGroup_append v2 "R37" RP_RMK md_default) (fun p => let v3 := Some (fst p) in let v4 := snd p in 
    chk 1200 (Ok (AppendResult_beq v4 APPENDED)) (
    chk 1202 (let! v5 := deref v3 in Ok (negb (VisibilityGroup_isValid v5))) (
    None))))).

Definition t_VisibilityGroup_parseRmkVisIntegerVariableInteger : option N :=
    step 1213 ((VisibilityGroup_parse "VIS" RP_RMK md_default)) (fun v1 => 
    chk 1214 (Ok (has_value v1)) (
    step 1216 (let! v2 := deref v1 in VisibilityGroup_append v2 "1V3" RP_RMK md_default) (fun p => let v3 := Some (fst p) in let v4 := snd p in 
    chk 1216 (Ok (AppendResult_beq v4 APPENDED)) (
    step 1218 (let! v5 := deref v3 in VisibilityGroup_append v5 "" RP_RMK md_default) (fun p => let v6 := Some (fst p) in let v7 := snd p in 
    chk 1218 (Ok (AppendResult_beq v7 NOT_APPENDED)) (
    chk 1221 (let! v8 := deref v6 in Ok (ViType_beq (vi_type v8) Vi_VARIABLE_PREVAILING)) (
    chk 1222 (let! v9 := deref v6 in Ok (negb (Distance_isReported (VisibilityGroup_visibility v9)))) (
    chk 1223 (let! v10 := deref v6 in Ok (negb (has_value (vi_dir v10)))) (
    chk 1225 (let! v11 := deref v6 in Ok (DistModifier_beq (distModifier (VisibilityGroup_minVisibility v11)) DM_NONE)) (
    chk 1226 (let! v12 := deref v6 in Ok (Distance_isReported (VisibilityGroup_minVisibility v12))) (
    chk 1227 (let! v13 := deref v6 in Ok (has_value (Distance_distance (VisibilityGroup_minVisibility v13)))) (
    chk 1228 (let! v14 := deref v6 in let! v15 := deref (Distance_distance (VisibilityGroup_minVisibility v14)) in Ok (near v15 (dlit (1) 1) (dlit (1) 200))) (
    chk 1229 (let! v16 := deref v6 in Ok (DistUnit_beq (distUnit (VisibilityGroup_minVisibility v16)) STATUTE_MILES)) (
    chk 1231 (let! v17 := deref v6 in Ok (DistUnit_beq (distUnit (VisibilityGroup_maxVisibility v17)) STATUTE_MILES)) (
    chk 1232 (let! v18 := deref v6 in Ok (Distance_isReported (VisibilityGroup_maxVisibility v18))) (
    chk 1233 (let! v19 := deref v6 in Ok (has_value (Distance_distance (VisibilityGroup_maxVisibility v19)))) (
    chk 1234 (let! v20 := deref v6 in let! v21 := deref (Distance_distance (VisibilityGroup_maxVisibility v20)) in Ok (near v21 (dlit (3) 1) (dlit (1) 200))) (
    chk 1235 (let! v22 := deref v6 in Ok (DistModifier_beq (distModifier (VisibilityGroup_maxVisibility v22)) DM_NONE)) (
    chk 1237 (let! v23 := deref v6 in let! v24 := (VisibilityGroup_sectorDirections v23) in Ok (N.eqb (N.of_nat (List.length v24)) 0%N)) (
    chk 1238 (let! v25 := deref v6 in Ok (ViTrend_beq (vi_trend v25) Vt_NONE)) (
    chk 1239 (let! v26 := deref v6 in Ok (VisibilityGroup_isValid v26)) (
    None)))))))))))))))))))))).

Definition t_VisibilityGroup_parseRmkVisFractionVariableInteger : option N :=
    step 1243 ((VisibilityGroup_parse "VIS" RP_RMK md_default)) (fun v1 => 
    chk 1244 (Ok (has_value v1)) (
    step 1246 (let! v2 := deref v1 in VisibilityGroup_append v2 "1/2V3" RP_RMK md_default) (fun p => let v3 := Some (fst p) in let v4 := snd p in 
    chk 1246 (Ok (AppendResult_beq v4 APPENDED)) (
    step 1248 (let! v5 := deref v3 in VisibilityGroup_append v5 "" RP_RMK md_default) (fun p => let v6 := Some (fst p) in let v7 := snd p in 
    chk 1248 (Ok (AppendResult_beq v7 NOT_APPENDED)) (
    chk 1251 (let! v8 := deref v6 in Ok (ViType_beq (vi_type v8) Vi_VARIABLE_PREVAILING)) (
    chk 1252 (let! v9 := deref v6 in Ok (negb (Distance_isReported (VisibilityGroup_visibility v9)))) (
    chk 1253 (let! v10 := deref v6 in Ok (negb (has_value (vi_dir v10)))) (
    chk 1255 (let! v11 := deref v6 in Ok (DistModifier_beq (distModifier (VisibilityGroup_minVisibility v11)) DM_NONE)) (
    chk 1256 (let! v12 := deref v6 in Ok (Distance_isReported (VisibilityGroup_minVisibility v12))) (
    chk 1257 (let! v13 := deref v6 in Ok (has_value (Distance_distance (VisibilityGroup_minVisibility v13)))) (
    chk 1258 (let! v14 := deref v6 in let! v15 := deref (Distance_distance (VisibilityGroup_minVisibility v14)) in Ok (near v15 (dlit (1) 2) (dlit (1) 200))) (
    chk 1259 (let! v16 := deref v6 in Ok (DistUnit_beq (distUnit (VisibilityGroup_minVisibility v16)) STATUTE_MILES)) (
    chk 1261 (let! v17 := deref v6 in Ok (DistUnit_beq (distUnit (VisibilityGroup_maxVisibility v17)) STATUTE_MILES)) (
    chk 1262 (let! v18 := deref v6 in Ok (Distance_isReported (VisibilityGroup_maxVisibility v18))) (
    chk 1263 (let! v19 := deref v6 in Ok (has_value (Distance_distance (VisibilityGroup_maxVisibility v19)))) (
    chk 1264 (let! v20 := deref v6 in let! v21 := deref (Distance_distance (VisibilityGroup_maxVisibility v20)) in Ok (near v21 (dlit (3) 1) (dlit (1) 200))) (
    chk 1265 (let! v22 := deref v6 in Ok (DistModifier_beq (distModifier (VisibilityGroup_maxVisibility v22)) DM_NONE)) (
    chk 1267 (let! v23 := deref v6 in let! v24 := (VisibilityGroup_sectorDirections v23) in Ok (N.eqb (N.of_nat (List.length v24)) 0%N)) (
    chk 1268 (let! v25 := deref v6 in Ok (ViTrend_beq (vi_trend v25) Vt_NONE)) (
    chk 1269 (let! v26 := deref v6 in Ok (VisibilityGroup_isValid v26)) (
    None)))))))))))))))))))))).

Definition t_VisibilityGroup_parseRmkVisFractionVariableFraction : option N :=
    step 1273 ((VisibilityGroup_parse "VIS" RP_RMK md_default)) (fun v1 => 
    chk 1274 (Ok (has_value v1)) (
    step 1276 (let! v2 := deref v1 in VisibilityGroup_append v2 "1/8V3/4" RP_RMK md_default) (fun p => let v3 := Some (fst p) in let v4 := snd p in 
    chk 1276 (Ok (AppendResult_beq v4 APPENDED)) (
    step 1278 (let! v5 := deref v3 in VisibilityGroup_append v5 "" RP_RMK md_default) (fun p => let v6 := Some (fst p) in let v7 := snd p in 
    chk 1278 (Ok (AppendResult_beq v7 NOT_APPENDED)) (
    chk 1281 (let! v8 := deref v6 in Ok (ViType_beq (vi_type v8) Vi_VARIABLE_PREVAILING)) (
    chk 1282 (let! v9 := deref v6 in Ok (negb (Distance_isReported (VisibilityGroup_visibility v9)))) (
    chk 1283 (let! v10 := deref v6 in Ok (negb (has_value (vi_dir v10)))) (
    chk 1285 (let! v11 := deref v6 in Ok (DistModifier_beq (distModifier (VisibilityGroup_minVisibility v11)) DM_NONE)) (
    chk 1286 (let! v12 := deref v6 in Ok (Distance_isReported (VisibilityGroup_minVisibility v12))) (
    chk 1287 (let! v13 := deref v6 in Ok (has_value (Distance_distance (VisibilityGroup_minVisibility v13)))) (
    chk 1288 (let! v14 := deref v6 in let! v15 := deref (Distance_distance (VisibilityGroup_minVisibility v14)) in Ok (near v15 (dlit (1) 8) (dlit (1) 200))) (
    chk 1289 (let! v16 := deref v6 in Ok (DistUnit_beq (distUnit (VisibilityGroup_minVisibility v16)) STATUTE_MILES)) (
    chk 1291 (let! v17 := deref v6 in Ok (DistModifier_beq (distModifier (VisibilityGroup_maxVisibility v17)) DM_NONE)) (
    chk 1292 (let! v18 := deref v6 in Ok (Distance_isReported (VisibilityGroup_maxVisibility v18))) (
    chk 1293 (let! v19 := deref v6 in Ok (has_value (Distance_distance (VisibilityGroup_maxVisibility v19)))) (
    chk 1294 (let! v20 := deref v6 in let! v21 := deref (Distance_distance (VisibilityGroup_maxVisibility v20)) in Ok (near v21 (dlit (3) 4) (dlit (1) 200))) (
    chk 1295 (let! v22 := deref v6 in Ok (DistUnit_beq (distUnit (VisibilityGroup_maxVisibility v22)) STATUTE_MILES)) (
    chk 1297 (let! v23 := deref v6 in let! v24 := (VisibilityGroup_sectorDirections v23) in Ok (N.eqb (N.of_nat (List.length v24)) 0%N)) (
    chk 1298 (let! v25 := deref v6 in Ok (ViTrend_beq (vi_trend v25) Vt_NONE)) (
    chk 1299 (let! v26 := deref v6 in Ok (VisibilityGroup_isValid v26)) (
    None)))))))))))))))))))))).

Definition t_VisibilityGroup_parseRmkVisIntegerFractionVariableInteger : option N :=
    step 1303 ((VisibilityGroup_parse "VIS" RP_RMK md_default)) (fun v1 => 
    chk 1304 (Ok (has_value v1)) (
    step 1306 (let! v2 := deref v1 in VisibilityGroup_append v2 "2" RP_RMK md_default) (fun p => let v3 := Some (fst p) in let v4 := snd p in 
    chk 1306 (Ok (AppendResult_beq v4 APPENDED)) (
    step 1308 (let! v5 := deref v3 in VisibilityGroup_append v5 "1/4V3" RP_RMK md_default) (fun p => let v6 := Some (fst p) in let v7 := snd p in 
    chk 1308 (Ok (AppendResult_beq v7 APPENDED)) (
    step 1310 (let! v8 := deref v6 in VisibilityGroup_append v8 "" RP_RMK md_default) (fun p => let v9 := Some (fst p) in let v10 := snd p in 
    chk 1310 (Ok (AppendResult_beq v10 NOT_APPENDED)) (
    chk 1313 (let! v11 := deref v9 in Ok (ViType_beq (vi_type v11) Vi_VARIABLE_PREVAILING)) (
    chk 1314 (let! v12 := deref v9 in Ok (negb (Distance_isReported (VisibilityGroup_visibility v12)))) (
    chk 1315 (let! v13 := deref v9 in Ok (negb (has_value (vi_dir v13)))) (
    chk 1317 (let! v14 := deref v9 in Ok (DistUnit_beq (distUnit (VisibilityGroup_minVisibility v14)) STATUTE_MILES)) (
    chk 1318 (let! v15 := deref v9 in Ok (Distance_isReported (VisibilityGroup_minVisibility v15))) (
    chk 1319 (let! v16 := deref v9 in Ok (has_value (Distance_distance (VisibilityGroup_minVisibility v16)))) (
    chk 1320 (let! v17 := deref v9 in let! v18 := deref (Distance_distance (VisibilityGroup_minVisibility v17)) in Ok (near v18 (dlit (9) 4) (dlit (1) 200))) (
    chk 1321 (let! v19 := deref v9 in Ok (DistModifier_beq (distModifier (VisibilityGroup_minVisibility v19)) DM_NONE)) (
    chk 1323 (let! v20 := deref v9 in Ok (DistUnit_beq (distUnit (VisibilityGroup_maxVisibility v20)) STATUTE_MILES)) (
    chk 1324 (let! v21 := deref v9 in Ok (Distance_isReported (VisibilityGroup_maxVisibility v21))) (
    chk 1325 (let! v22 := deref v9 in Ok (has_value (Distance_distance (VisibilityGroup_maxVisibility v22)))) (
    chk 1326 (let! v23 := deref v9 in let! v24 := deref (Distance_distance (VisibilityGroup_maxVisibility v23)) in Ok (near v24 (dlit (3) 1) (dlit (1) 200))) (
    chk 1327 (let! v25 := deref v9 in Ok (DistModifier_beq (distModifier (VisibilityGroup_maxVisibility v25)) DM_NONE)) (
    chk 1329 (let! v26 := deref v9 in let! v27 := (VisibilityGroup_sectorDirections v26) in Ok (N.eqb (N.of_nat (List.length v27)) 0%N)) (
    chk 1330 (let! v28 := deref v9 in Ok (ViTrend_beq (vi_trend v28) Vt_NONE)) (
    chk 1331 (let! v29 := deref v9 in Ok (VisibilityGroup_isValid v29)) (
    None)))))))))))))))))))))))).

Definition t_VisibilityGroup_parseRmkVisIntegerTwoDigitVariableIntegerTwoDigit : option N :=
    step 1335 ((VisibilityGroup_parse "VIS" RP_RMK md_default)) (fun v1 => 
    chk 1336 (Ok (has_value v1)) (
    step 1338 (let! v2 := deref v1 in VisibilityGroup_append v2 "10V15" RP_RMK md_default) (fun p => let v3 := Some (fst p) in let v4 := snd p in 
    chk 1338 (Ok (AppendResult_beq v4 APPENDED)) (
    step 1340 (let! v5 := deref v3 in VisibilityGroup_append v5 "" RP_RMK md_default) (fun p => let v6 := Some (fst p) in let v7 := snd p in 
    chk 1340 (Ok (AppendResult_beq v7 NOT_APPENDED)) (
    chk 1343 (let! v8 := deref v6 in Ok (ViType_beq (vi_type v8) Vi_VARIABLE_PREVAILING)) (
    chk 1344 (let! v9 := deref v6 in Ok (negb (Distance_isReported (VisibilityGroup_visibility v9)))) (
    chk 1345 (let! v10 := deref v6 in Ok (negb (has_value (vi_dir v10)))) (
    chk 1347 (let! v11 := deref v6 in Ok (DistUnit_beq (distUnit (VisibilityGroup_minVisibility v11)) STATUTE_MILES)) (
    chk 1348 (let! v12 := deref v6 in Ok (Distance_isReported (VisibilityGroup_minVisibility v12))) (
    chk 1349 (let! v13 := deref v6 in Ok (has_value (Distance_distance (VisibilityGroup_minVisibility v13)))) (
    chk 1350 (let! v14 := deref v6 in let! v15 := deref (Distance_distance (VisibilityGroup_minVisibility v14)) in Ok (near v15 (dlit (10) 1) (dlit (1) 200))) (
    chk 1351 (let! v16 := deref v6 in Ok (DistModifier_beq (distModifier (VisibilityGroup_minVisibility v16)) DM_NONE)) (
    chk 1353 (let! v17 := deref v6 in Ok (DistUnit_beq (distUnit (VisibilityGroup_maxVisibility v17)) STATUTE_MILES)) (
    chk 1354 (let! v18 := deref v6 in Ok (Distance_isReported (VisibilityGroup_maxVisibility v18))) (
    chk 1355 (let! v19 := deref v6 in Ok (has_value (Distance_distance (VisibilityGroup_maxVisibility v19)))) (
    chk 1356 (let! v20 := deref v6 in let! v21 := deref (Distance_distance (VisibilityGroup_maxVisibility v20)) in Ok (near v21 (dlit (15) 1) (dlit (1) 200))) (
    chk 1357 (let! v22 := deref v6 in Ok (DistModifier_beq (distModifier (VisibilityGroup_maxVisibility v22)) DM_NONE)) (
    chk 1359 (let! v23 := deref v6 in let! v24 := (VisibilityGroup_sectorDirections v23) in Ok (N.eqb (N.of_nat (List.length v24)) 0%N)) (
    chk 1360 (let! v25 := deref v6 in Ok (ViTrend_beq (vi_trend v25) Vt_NONE)) (
    chk 1361 (let! v26 := deref v6 in Ok (VisibilityGroup_isValid v26)) (
    None)))))))))))))))))))))).

Definition t_VisibilityGroup_parseRmkVisIntegerTwoDigitFractionVariableIntegerTwoDigit : option N :=
    step 1365 ((VisibilityGroup_parse "VIS" RP_RMK md_default)) (fun v1 => 
    chk 1366 (Ok (has_value v1)) (
    step 1368 (let! v2 := deref v1 in VisibilityGroup_append v2 "10" RP_RMK md_default) (fun p => let v3 := Some (fst p) in let v4 := snd p in 
    chk 1368 (Ok (AppendResult_beq v4 APPENDED)) (
    step 1370 (let! v5 := deref v3 in VisibilityGroup_append v5 "1/2V11" RP_RMK md_default) (fun p => let v6 := Some (fst p) in let v7 := snd p in 
    chk 1370 (Ok (AppendResult_beq v7 APPENDED)) (
    step 1372 (let! v8 := deref v6 in VisibilityGroup_append v8 "" RP_RMK md_default) (fun p => let v9 := Some (fst p) in let v10 := snd p in 
    chk 1372 (Ok (AppendResult_beq v10 NOT_APPENDED)) (
    chk 1375 (let! v11 := deref v9 in Ok (ViType_beq (vi_type v11) Vi_VARIABLE_PREVAILING)) (
    chk 1376 (let! v12 := deref v9 in Ok (negb (Distance_isReported (VisibilityGroup_visibility v12)))) (
    chk 1377 (let! v13 := deref v9 in Ok (negb (has_value (vi_dir v13)))) (
    chk 1379 (let! v14 := deref v9 in Ok (DistModifier_beq (distModifier (VisibilityGroup_minVisibility v14)) DM_NONE)) (
    chk 1380 (let! v15 := deref v9 in Ok (Distance_isReported (VisibilityGroup_minVisibility v15))) (
    chk 1381 (let! v16 := deref v9 in Ok (has_value (Distance_distance (VisibilityGroup_minVisibility v16)))) (
    chk 1382 (let! v17 := deref v9 in let! v18 := deref (Distance_distance (VisibilityGroup_minVisibility v17)) in Ok (near v18 (dlit (21) 2) (dlit (1) 200))) (
    chk 1383 (let! v19 := deref v9 in Ok (DistUnit_beq (distUnit (VisibilityGroup_minVisibility v19)) STATUTE_MILES)) (
    chk 1385 (let! v20 := deref v9 in Ok (DistModifier_beq (distModifier (VisibilityGroup_maxVisibility v20)) DM_NONE)) (
    chk 1386 (let! v21 := deref v9 in Ok (Distance_isReported (VisibilityGroup_maxVisibility v21))) (
    chk 1387 (let! v22 := deref v9 in Ok (has_value (Distance_distance (VisibilityGroup_maxVisibility v22)))) (
    chk 1388 (let! v23 := deref v9 in let! v24 := deref (Distance_distance (VisibilityGroup_maxVisibility v23)) in Ok (near v24 (dlit (11) 1) (dlit (1) 200))) (
    chk 1389 (let! v25 := deref v9 in Ok (DistUnit_beq (distUnit (VisibilityGroup_maxVisibility v25)) STATUTE_MILES)) (
    chk 1391 (let! v26 := deref v9 in let! v27 := (VisibilityGroup_sectorDirections v26) in Ok (N.eqb (N.of_nat (List.length v27)) 0%N)) (
    chk 1392 (let! v28 := deref v9 in Ok (ViTrend_beq (vi_trend v28) Vt_NONE)) (
    chk 1393 (let! v29 := deref v9 in Ok (VisibilityGroup_isValid v29)) (
    None)))))))))))))))))))))))).

Definition t_VisibilityGroup_parseRmkVisFractionTwoDigitVariableInteger : option N :=
    step 1397 ((VisibilityGroup_parse "VIS" RP_RMK md_default)) (fun v1 => 
    chk 1398 (Ok (has_value v1)) (
    step 1400 (let! v2 := deref v1 in VisibilityGroup_append v2 "11/16V1" RP_RMK md_default) (fun p => let v3 := Some (fst p) in let v4 := snd p in 
    chk 1400 (Ok (AppendResult_beq v4 APPENDED)) (
    step 1402 (let! v5 := deref v3 in VisibilityGroup_append v5 "" RP_RMK md_default) (fun p => let v6 := Some (fst p) in let v7 := snd p in 
    chk 1402 (Ok (AppendResult_beq v7 NOT_APPENDED)) (
    chk 1405 (let! v8 := deref v6 in Ok (ViType_beq (vi_type v8) Vi_VARIABLE_PREVAILING)) (
    chk 1406 (let! v9 := deref v6 in Ok (negb (Distance_isReported (VisibilityGroup_visibility v9)))) (
    chk 1407 (let! v10 := deref v6 in Ok (negb (has_value (vi_dir v10)))) (
    chk 1409 (let! v11 := deref v6 in Ok (DistModifier_beq (distModifier (VisibilityGroup_minVisibility v11)) DM_NONE)) (
    chk 1410 (let! v12 := deref v6 in Ok (Distance_isReported (VisibilityGroup_minVisibility v12))) (
    chk 1411 (let! v13 := deref v6 in Ok (has_value (Distance_distance (VisibilityGroup_minVisibility v13)))) (
    chk 1412 (let! v14 := deref v6 in let! v15 := deref (Distance_distance (VisibilityGroup_minVisibility v14)) in Ok (near v15 (dlit (11) 16) (dlit (1) 200))) (
    chk 1413 (let! v16 := deref v6 in Ok (DistUnit_beq (distUnit (VisibilityGroup_minVisibility v16)) STATUTE_MILES)) (
    chk 1415 (let! v17 := deref v6 in Ok (DistModifier_beq (distModifier (VisibilityGroup_maxVisibility v17)) DM_NONE)) (
    chk 1416 (let! v18 := deref v6 in Ok (Distance_isReported (VisibilityGroup_maxVisibility v18))) (
    chk 1417 (let! v19 := deref v6 in Ok (has_value (Distance_distance (VisibilityGroup_maxVisibility v19)))) (
    chk 1418 (let! v20 := deref v6 in let! v21 := deref (Distance_distance (VisibilityGroup_maxVisibility v20)) in Ok (near v21 (dlit (1) 1) (dlit (1) 200))) (
    chk 1419 (let! v22 := deref v6 in Ok (DistUnit_beq (distUnit (VisibilityGroup_maxVisibility v22)) STATUTE_MILES)) (
    chk 1421 (let! v23 := deref v6 in let! v24 := (VisibilityGroup_sectorDirections v23) in Ok (N.eqb (N.of_nat (List.length v24)) 0%N)) (
    chk 1422 (let! v25 := deref v6 in Ok (ViTrend_beq (vi_trend v25) Vt_NONE)) (
    chk 1423 (let! v26 := deref v6 in Ok (VisibilityGroup_isValid v26)) (
    None)))))))))))))))))))))).

Definition t_VisibilityGroup_parseRmkVisFractionVariableFractionTwoDigit : option N :=
    step 1427 ((VisibilityGroup_parse "VIS" RP_RMK md_default)) (fun v1 => 
    chk 1428 (Ok (has_value v1)) (
    step 1430 (let! v2 := deref v1 in VisibilityGroup_append v2 "1/8V15/16" RP_RMK md_default) (fun p => let v3 := Some (fst p) in let v4 := snd p in 
    chk 1430 (Ok (AppendResult_beq v4 APPENDED)) (
    step 1432 (let! v5 := deref v3 in VisibilityGroup_append v5 "" RP_RMK md_default) (fun p => let v6 := Some (fst p) in let v7 := snd p in 
    chk 1432 (Ok (AppendResult_beq v7 NOT_APPENDED)) (
    chk 1435 (let! v8 := deref v6 in Ok (ViType_beq (vi_type v8) Vi_VARIABLE_PREVAILING)) (
    chk 1436 (let! v9 := deref v6 in Ok (negb (Distance_isReported (VisibilityGroup_visibility v9)))) (
    chk 1437 (let! v10 := deref v6 in Ok (negb (has_value (vi_dir v10)))) (
    chk 1439 (let! v11 := deref v6 in Ok (DistModifier_beq (distModifier (VisibilityGroup_minVisibility v11)) DM_NONE)) (
    chk 1440 (let! v12 := deref v6 in Ok (Distance_isReported (VisibilityGroup_minVisibility v12))) (
    chk 1441 (let! v13 := deref v6 in Ok (has_value (Distance_distance (VisibilityGroup_minVisibility v13)))) (
    chk 1442 (let! v14 := deref v6 in let! v15 := deref (Distance_distance (VisibilityGroup_minVisibility v14)) in Ok (near v15 (dlit (1) 8) (dlit (1) 200))) (
    chk 1443 (let! v16 := deref v6 in Ok (DistUnit_beq (distUnit (VisibilityGroup_minVisibility v16)) STATUTE_MILES)) (
    chk 1445 (let! v17 := deref v6 in Ok (DistModifier_beq (distModifier (VisibilityGroup_maxVisibility v17)) DM_NONE)) (
    chk 1446 (let! v18 := deref v6 in Ok (Distance_isReported (VisibilityGroup_maxVisibility v18))) (
    chk 1447 (let! v19 := deref v6 in Ok (has_value (Distance_distance (VisibilityGroup_maxVisibility v19)))) (
    chk 1448 (let! v20 := deref v6 in let! v21 := deref (Distance_distance (VisibilityGroup_maxVisibility v20)) in Ok (near v21 (dlit (15) 16) (dlit (1) 200))) (
    chk 1449 (let! v22 := deref v6 in Ok (DistUnit_beq (distUnit (VisibilityGroup_maxVisibility v22)) STATUTE_MILES)) (
    chk 1451 (let! v23 := deref v6 in let! v24 := (VisibilityGroup_sectorDirections v23) in Ok (N.eqb (N.of_nat (List.length v24)) 0%N)) (
    chk 1452 (let! v25 := deref v6 in Ok (ViTrend_beq (vi_trend v25) Vt_NONE)) (
    chk 1453 (let! v26 := deref v6 in Ok (VisibilityGroup_isValid v26)) (
    None)))))))))))))))))))))).

Definition t_VisibilityGroup_parseRmkVisFractionVariableIntegerFraction : option N :=
    step 1457 ((VisibilityGroup_parse "VIS" RP_RMK md_default)) (fun v1 => 
    chk 1458 (Ok (has_value v1)) (
    step 1460 (let! v2 := deref v1 in VisibilityGroup_append v2 "3/4V1" RP_RMK md_default) (fun p => let v3 := Some (fst p) in let v4 := snd p in 
    chk 1460 (Ok (AppendResult_beq v4 APPENDED)) (
    step 1462 (let! v5 := deref v3 in VisibilityGroup_append v5 "1/4" RP_RMK md_default) (fun p => let v6 := Some (fst p) in let v7 := snd p in 
    chk 1462 (Ok (AppendResult_beq v7 APPENDED)) (
    step 1464 (let! v8 := deref v6 in VisibilityGroup_append v8 "" RP_RMK md_default) (fun p => let v9 := Some (fst p) in let v10 := snd p in 
    chk 1464 (Ok (AppendResult_beq v10 NOT_APPENDED)) (
    chk 1467 (let! v11 := deref v9 in Ok (ViType_beq (vi_type v11) Vi_VARIABLE_PREVAILING)) (
    chk 1468 (let! v12 := deref v9 in Ok (negb (Distance_isReported (VisibilityGroup_visibility v12)))) (
    chk 1469 (let! v13 := deref v9 in Ok (negb (has_value (vi_dir v13)))) (
    chk 1471 (let! v14 := deref v9 in Ok (DistUnit_beq (distUnit (VisibilityGroup_minVisibility v14)) STATUTE_MILES)) (
    chk 1472 (let! v15 := deref v9 in Ok (Distance_isReported (VisibilityGroup_minVisibility v15))) (
    chk 1473 (let! v16 := deref v9 in Ok (has_value (Distance_distance (VisibilityGroup_minVisibility v16)))) (
    chk 1474 (let! v17 := deref v9 in let! v18 := deref (Distance_distance (VisibilityGroup_minVisibility v17)) in Ok (near v18 (dlit (3) 4) (dlit (1) 200))) (
    chk 1475 (let! v19 := deref v9 in Ok (DistModifier_beq (distModifier (VisibilityGroup_minVisibility v19)) DM_NONE)) (
    chk 1477 (let! v20 := deref v9 in Ok (DistUnit_beq (distUnit (VisibilityGroup_maxVisibility v20)) STATUTE_MILES)) (
    chk 1478 (let! v21 := deref v9 in Ok (Distance_isReported (VisibilityGroup_maxVisibility v21))) (
    chk 1479 (let! v22 := deref v9 in Ok (has_value (Distance_distance (VisibilityGroup_maxVisibility v22)))) (
    chk 1480 (let! v23 := deref v9 in let! v24 := deref (Distance_distance (VisibilityGroup_maxVisibility v23)) in Ok (near v24 (dlit (5) 4) (dlit (1) 200))) (
    chk 1481 (let! v25 := deref v9 in Ok (DistModifier_beq (distModifier (VisibilityGroup_maxVisibility v25)) DM_NONE)) (
    chk 1483 (let! v26 := deref v9 in let! v27 := (VisibilityGroup_sectorDirections v26) in Ok (N.eqb (N.of_nat (List.length v27)) 0%N)) (
    chk 1484 (let! v28 := deref v9 in Ok (ViTrend_beq (vi_trend v28) Vt_NONE)) (
    chk 1485 (let! v29 := deref v9 in Ok (VisibilityGroup_isValid v29)) (
    None)))))))))))))))))))))))).

Definition t_VisibilityGroup_parseRmkVisIntegerFractionVariableIntegerFraction : option N :=
    step 1489 ((VisibilityGroup_parse "VIS" RP_RMK md_default)) (fun v1 => 
    chk 1490 (Ok (has_value v1)) (
    step 1492 (let! v2 := deref v1 in VisibilityGroup_append v2 "1" RP_RMK md_default) (fun p => let v3 := Some (fst p) in let v4 := snd p in 
    chk 1492 (Ok (AppendResult_beq v4 APPENDED)) (
    step 1494 (let! v5 := deref v3 in VisibilityGroup_append v5 "1/4V1" RP_RMK md_default) (fun p => let v6 := Some (fst p) in let v7 := snd p in 
    chk 1494 (Ok (AppendResult_beq v7 APPENDED)) (
    step 1496 (let! v8 := deref v6 in VisibilityGroup_append v8 "3/4" RP_RMK md_default) (fun p => let v9 := Some (fst p) in let v10 := snd p in 
    chk 1496 (Ok (AppendResult_beq v10 APPENDED)) (
    step 1498 (let! v11 := deref v9 in VisibilityGroup_append v11 "" RP_RMK md_default) (fun p => let v12 := Some (fst p) in let v13 := snd p in 
    chk 1498 (Ok (AppendResult_beq v13 NOT_APPENDED)) (
    chk 1501 (let! v14 := deref v12 in Ok (ViType_beq (vi_type v14) Vi_VARIABLE_PREVAILING)) (
    chk 1502 (let! v15 := deref v12 in Ok (negb (Distance_isReported (VisibilityGroup_visibility v15)))) (
    chk 1503 (let! v16 := deref v12 in Ok (negb (has_value (vi_dir v16)))) (
    chk 1505 (let! v17 := deref v12 in Ok (DistUnit_beq (distUnit (VisibilityGroup_minVisibility v17)) STATUTE_MILES)) (
    chk 1506 (let! v18 := deref v12 in Ok (Distance_isReported (VisibilityGroup_minVisibility v18))) (
    chk 1507 (let! v19 := deref v12 in Ok (has_value (Distance_distance (VisibilityGroup_minVisibility v19)))) (
    chk 1508 (let! v20 := deref v12 in let! v21 := deref (Distance_distance (VisibilityGroup_minVisibility v20)) in Ok (near v21 (dlit (5) 4) (dlit (1) 200))) (
    chk 1509 (let! v22 := deref v12 in Ok (DistModifier_beq (distModifier (VisibilityGroup_minVisibility v22)) DM_NONE)) (
    chk 1511 (let! v23 := deref v12 in Ok (DistUnit_beq (distUnit (VisibilityGroup_maxVisibility v23)) STATUTE_MILES)) (
    chk 1512 (let! v24 := deref v12 in Ok (Distance_isReported (VisibilityGroup_maxVisibility v24))) (
    chk 1513 (let! v25 := deref v12 in Ok (has_value (Distance_distance (VisibilityGroup_maxVisibility v25)))) (
    chk 1514 (let! v26 := deref v12 in let! v27 := deref (Distance_distance (VisibilityGroup_maxVisibility v26)) in Ok (near v27 (dlit (7) 4) (dlit (1) 200))) (
    chk 1515 (let! v28 := deref v12 in Ok (DistModifier_beq (distModifier (VisibilityGroup_maxVisibility v28)) DM_NONE)) (
    chk 1517 (let! v29 := deref v12 in let! v30 := (VisibilityGroup_sectorDirections v29) in Ok (N.eqb (N.of_nat (List.length v30)) 0%N)) (
    chk 1518 (let! v31 := deref v12 in Ok (ViTrend_beq (vi_trend v31) Vt_NONE)) (
    chk 1519 (let! v32 := deref v12 in Ok (VisibilityGroup_isValid v32)) (
    None)))))))))))))))))))))))))).

Definition t_VisibilityGroup_parseRmkAppendToCompleteVarVisGroups : option N :=
    step 1523 ((VisibilityGroup_parse "VIS" RP_RMK md_default)) (fun v1 => 
    chk 1524 (Ok (has_value v1)) (
    step 1525 (let! v2 := deref v1 in VisibilityGroup_append v2 "1V3" RP_RMK md_default) (fun p => let v3 := Some (fst p) in let v4 := snd p in 
    chk 1525 (Ok (AppendResult_beq v4 APPENDED)) (
    step 1526 (let! v5 := deref v3 in VisibilityGroup_append v5 "NW" RP_RMK md_default) (fun p => let v6 := Some (fst p) in let v7 := snd p in 
    chk 1526 (Ok (AppendResult_beq v7 NOT_APPENDED)) (
    step 1527 (let! v8 := deref v6 in VisibilityGroup_append v8 "1V3" RP_RMK md_default) (fun p => let v9 := Some (fst p) in let v10 := snd p in 
    chk 1527 (Ok (AppendResult_beq v10 NOT_APPENDED)) (
    step 1528 (let! v11 := deref v9 in VisibilityGroup_append v11 "1/2V3" RP_RMK md_default) (fun p => let v12 := Some (fst p) in let v13 := snd p in 
    chk 1528 (Ok (AppendResult_beq v13 NOT_APPENDED)) (
    step 1529 (let! v14 := deref v12 in VisibilityGroup_append v14 "2" RP_RMK md_default) (fun p => let v15 := Some (fst p) in let v16 := snd p in 
    chk 1529 (Ok (AppendResult_beq v16 NOT_APPENDED)) (
    step 1531 ((VisibilityGroup_parse "VIS" RP_RMK md_default)) (fun v17 => 
    chk 1532 (Ok (has_value v17)) (
    step 1533 (let! v18 := deref v17 in VisibilityGroup_append v18 "1" RP_RMK md_default) (fun p => let v19 := Some (fst p) in let v20 := snd p in 
    chk 1533 (Ok (AppendResult_beq v20 APPENDED)) (
    step 1534 (let! v21 := deref v19 in VisibilityGroup_append v21 "1/8V1" RP_RMK md_default) (fun p => let v22 := Some (fst p) in let v23 := snd p in 
    chk 1534 (Ok (AppendResult_beq v23 APPENDED)) (
    step 1535 (let! v24 := deref v22 in VisibilityGroup_append v24 "1/2" RP_RMK md_default) (fun p => let v25 := Some (fst p) in let v26 := snd p in 
    chk 1535 (Ok (AppendResult_beq v26 APPENDED)) (
    step 1536 (let! v27 := deref v25 in VisibilityGroup_append v27 "NW" RP_RMK md_default) (fun p => let v28 := Some (fst p) in let v29 := snd p in 
    chk 1536 (Ok (AppendResult_beq v29 NOT_APPENDED)) (
    step 1537 (let! v30 := deref v28 in VisibilityGroup_append v30 "1V3" RP_RMK md_default) (fun p => let v31 := Some (fst p) in let v32 := snd p in 
    chk 1537 (Ok (AppendResult_beq v32 NOT_APPENDED)) (
    step 1538 (let! v33 := deref v31 in VisibilityGroup_append v33 "1/2V3" RP_RMK md_default) (fun p => let v34 := Some (fst p) in let v35 := snd p in 
    chk 1538 (Ok (AppendResult_beq v35 NOT_APPENDED)) (
    step 1539 (let! v36 := deref v34 in VisibilityGroup_append v36 "2" RP_RMK md_default) (fun p => let v37 := Some (fst p) in let v38 := snd p in 
    chk 1539 (Ok (AppendResult_beq v38 NOT_APPENDED)) (
    step 1541 ((VisibilityGroup_parse "VIS" RP_RMK md_default)) (fun v39 => 
    chk 1542 (Ok (has_value v39)) (
    step 1543 (let! v40 := deref v39 in VisibilityGroup_append v40 "S" RP_RMK md_default) (fun p => let v41 := Some (fst p) in let v42 := snd p in 
    chk 1543 (Ok (AppendResult_beq v42 APPENDED)) (
    step 1544 (let! v43 := deref v41 in VisibilityGroup_append v43 "1/2" RP_RMK md_default) (fun p => let v44 := Some (fst p) in let v45 := snd p in 
    chk 1544 (Ok (AppendResult_beq v45 APPENDED)) (
    step 1545 (let! v46 := deref v44 in VisibilityGroup_append v46 "NW" RP_RMK md_default) (fun p => let v47 := Some (fst p) in let v48 := snd p in 
    chk 1545 (Ok (AppendResult_beq v48 NOT_APPENDED)) (
    step 1546 (let! v49 := deref v47 in VisibilityGroup_append v49 "1V3" RP_RMK md_default) (fun p => let v50 := Some (fst p) in let v51 := snd p in 
    chk 1546 (Ok (AppendResult_beq v51 NOT_APPENDED)) (
    step 1547 (let! v52 := deref v50 in VisibilityGroup_append v52 "1/2V3" RP_RMK md_default) (fun p => let v53 := Some (fst p) in let v54 := snd p in 
    chk 1547 (Ok (AppendResult_beq v54 NOT_APPENDED)) (
    step 1548 (let! v55 := deref v53 in VisibilityGroup_append v55 "2" RP_RMK md_default) (fun p => let v56 := Some (fst p) in let v57 := snd p in 
    chk 1548 (Ok (AppendResult_beq v57 NOT_APPENDED)) (
    step 1550 ((VisibilityGroup_parse "VIS" RP_RMK md_default)) (fun v58 => 
    chk 1551 (Ok (has_value v58)) (
    step 1552 (let! v59 := deref v58 in VisibilityGroup_append v59 "W" RP_RMK md_default) (fun p => let v60 := Some (fst p) in let v61 := snd p in 
    chk 1552 (Ok (AppendResult_beq v61 APPENDED)) (
    step 1553 (let! v62 := deref v60 in VisibilityGroup_append v62 "4V6" RP_RMK md_default) (fun p => let v63 := Some (fst p) in let v64 := snd p in 
    chk 1553 (Ok (AppendResult_beq v64 APPENDED)) (
    step 1554 (let! v65 := deref v63 in VisibilityGroup_append v65 "NW" RP_RMK md_default) (fun p => let v66 := Some (fst p) in let v67 := snd p in 
    chk 1554 (Ok (AppendResult_beq v67 NOT_APPENDED)) (
    step 1555 (let! v68 := deref v66 in VisibilityGroup_append v68 "1V3" RP_RMK md_default) (fun p => let v69 := Some (fst p) in let v70 := snd p in 
    chk 1555 (Ok (AppendResult_beq v70 NOT_APPENDED)) (
    step 1556 (let! v71 := deref v69 in VisibilityGroup_append v71 "1/2V3" RP_RMK md_default) (fun p => let v72 := Some (fst p) in let v73 := snd p in 
    chk 1556 (Ok (AppendResult_beq v73 NOT_APPENDED)) (
    step 1557 (let! v74 := deref v72 in VisibilityGroup_append v74 "2" RP_RMK md_default) (fun p => let v75 := Some (fst p) in let v76 := snd p in 
    chk 1557 (Ok (AppendResult_beq v76 NOT_APPENDED)) (
    step 1559 ((VisibilityGroup_parse "VIS" RP_RMK md_default)) (fun v77 => 
    chk 1560 (Ok (has_value v77)) (
    step 1561 (let! v78 := deref v77 in VisibilityGroup_append v78 "1" RP_RMK md_default) (fun p => let v79 := Some (fst p) in let v80 := snd p in 
    chk 1561 (Ok (AppendResult_beq v80 APPENDED)) (
    step 1562 (let! v81 := deref v79 in VisibilityGroup_append v81 "1/2V3" RP_RMK md_default) (fun p => let v82 := Some (fst p) in let v83 := snd p in 
    chk 1562 (Ok (AppendResult_beq v83 APPENDED)) (
    step 1563 (let! v84 := deref v82 in VisibilityGroup_append v84 "R22" RP_RMK md_default) (fun p => let v85 := Some (fst p) in let v86 := snd p in 
    chk 1563 (Ok (AppendResult_beq v86 APPENDED)) (
    step 1564 (let! v87 := deref v85 in VisibilityGroup_append v87 "NW" RP_RMK md_default) (fun p => let v88 := Some (fst p) in let v89 := snd p in 
    chk 1564 (Ok (AppendResult_beq v89 NOT_APPENDED)) (
    step 1565 (let! v90 := deref v88 in VisibilityGroup_append v90 "1V3" RP_RMK md_default) (fun p => let v91 := Some (fst p) in let v92 := snd p in 
    chk 1565 (Ok (AppendResult_beq v92 NOT_APPENDED)) (
    step 1566 (let! v93 := deref v91 in VisibilityGroup_append v93 "1/2V3" RP_RMK md_default) (fun p => let v94 := Some (fst p) in let v95 := snd p in 
    chk 1566 (Ok (AppendResult_beq v95 NOT_APPENDED)) (
    step 1567 (let! v96 := deref v94 in VisibilityGroup_append v96 "2" RP_RMK md_default) (fun p => let v97 := Some (fst p) in let v98 := snd p in 
    chk 1567 (Ok (AppendResult_beq v98 NOT_APPENDED)) (
    step 1568 (let! v99 := deref v97 in VisibilityGroup_append v99 "RWY22" RP_RMK md_default) (fun p => let v100 := Some (fst p) in let v101 := snd p in 
    chk 1568 (Ok (AppendResult_beq v101 NOT_APPENDED)) (
    None)))))))))))))))))))))))))))))))))))))))))))))))))))))))))))))))))))))))))).

Definition t_VisibilityGroup_parseRmkVisModifierFractionVariableInteger : option N :=
    step 1572 ((VisibilityGroup_parse "VIS" RP_RMK md_default)) (fun v1 => 
    chk 1573 (Ok (has_value v1)) (
    step 1575 (let! v2 := deref v1 in VisibilityGroup_append v2 "M1/4V5" RP_RMK md_default) (fun p => let v3 := Some (fst p) in let v4 := snd p in 
    chk 1575 (Ok (AppendResult_beq v4 APPENDED)) (
    step 1577 (let! v5 := deref v3 in VisibilityGroup_append v5 "" RP_RMK md_default) (fun p => let v6 := Some (fst p) in let v7 := snd p in 
    chk 1577 (Ok (AppendResult_beq v7 NOT_APPENDED)) (
    chk 1580 (let! v8 := deref v6 in Ok (ViType_beq (vi_type v8) Vi_VARIABLE_PREVAILING)) (
    chk 1581 (let! v9 := deref v6 in Ok (negb (Distance_isReported (VisibilityGroup_visibility v9)))) (
    chk 1582 (let! v10 := deref v6 in Ok (negb (has_value (vi_dir v10)))) (
    chk 1584 (let! v11 := deref v6 in Ok (DistModifier_beq (distModifier (VisibilityGroup_minVisibility v11)) DM_LESS_THAN)) (
    chk 1585 (let! v12 := deref v6 in Ok (Distance_isReported (VisibilityGroup_minVisibility v12))) (
    chk 1586 (let! v13 := deref v6 in Ok (has_value (Distance_distance (VisibilityGroup_minVisibility v13)))) (
    chk 1587 (let! v14 := deref v6 in let! v15 := deref (Distance_distance (VisibilityGroup_minVisibility v14)) in Ok (near v15 (dlit (1) 4) (dlit (1) 200))) (
    chk 1588 (let! v16 := deref v6 in Ok (DistUnit_beq (distUnit (VisibilityGroup_minVisibility v16)) STATUTE_MILES)) (
    chk 1590 (let! v17 := deref v6 in Ok (DistUnit_beq (distUnit (VisibilityGroup_maxVisibility v17)) STATUTE_MILES)) (
    chk 1591 (let! v18 := deref v6 in Ok (Distance_isReported (VisibilityGroup_maxVisibility v18))) (
    chk 1592 (let! v19 := deref v6 in Ok (has_value (Distance_distance (VisibilityGroup_maxVisibility v19)))) (
    chk 1593 (let! v20 := deref v6 in let! v21 := deref (Distance_distance (VisibilityGroup_maxVisibility v20)) in Ok (near v21 (dlit (5) 1) (dlit (1) 200))) (
    chk 1594 (let! v22 := deref v6 in Ok (DistModifier_beq (distModifier (VisibilityGroup_maxVisibility v22)) DM_NONE)) (
    chk 1596 (let! v23 := deref v6 in let! v24 := (VisibilityGroup_sectorDirections v23) in Ok (N.eqb (N.of_nat (List.length v24)) 0%N)) (
    chk 1597 (let! v25 := deref v6 in Ok (ViTrend_beq (vi_trend v25) Vt_NONE)) (
    chk 1598 (let! v26 := deref v6 in Ok (VisibilityGroup_isValid v26)) (
    None)))))))))))))))))))))).

Definition t_VisibilityGroup_parseRmkVisFractionVariableModifierInteger : option N :=
    step 1602 ((VisibilityGroup_parse "VIS" RP_RMK md_default)) (fun v1 => 
    chk 1603 (Ok (has_value v1)) (
    step 1605 (let! v2 := deref v1 in VisibilityGroup_append v2 "1/4VP6" RP_RMK md_default) (fun p => let v3 := Some (fst p) in let v4 := snd p in 
    chk 1605 (Ok (AppendResult_beq v4 APPENDED)) (
    step 1607 (let! v5 := deref v3 in VisibilityGroup_append v5 "" RP_RMK md_default) (fun p => let v6 := Some (fst p) in let v7 := snd p in 
    chk 1607 (Ok (AppendResult_beq v7 NOT_APPENDED)) (
    chk 1610 (let! v8 := deref v6 in Ok (ViType_beq (vi_type v8) Vi_VARIABLE_PREVAILING)) (
    chk 1611 (let! v9 := deref v6 in Ok (negb (Distance_isReported (VisibilityGroup_visibility v9)))) (
    chk 1612 (let! v10 := deref v6 in Ok (negb (has_value (vi_dir v10)))) (
    chk 1614 (let! v11 := deref v6 in Ok (DistModifier_beq (distModifier (VisibilityGroup_minVisibility v11)) DM_NONE)) (
    chk 1615 (let! v12 := deref v6 in Ok (Distance_isReported (VisibilityGroup_minVisibility v12))) (
    chk 1616 (let! v13 := deref v6 in Ok (has_value (Distance_distance (VisibilityGroup_minVisibility v13)))) (
    chk 1617 (let! v14 := deref v6 in let! v15 := deref (Distance_distance (VisibilityGroup_minVisibility v14)) in Ok (near v15 (dlit (1) 4) (dlit (1) 200))) (
    chk 1618 (let! v16 := deref v6 in Ok (DistUnit_beq (distUnit (VisibilityGroup_minVisibility v16)) STATUTE_MILES)) (
    chk 1620 (let! v17 := deref v6 in Ok (DistUnit_beq (distUnit (VisibilityGroup_maxVisibility v17)) STATUTE_MILES)) (
    chk 1621 (let! v18 := deref v6 in Ok (Distance_isReported (VisibilityGroup_maxVisibility v18))) (
    chk 1622 (let! v19 := deref v6 in Ok (has_value (Distance_distance (VisibilityGroup_maxVisibility v19)))) (
    chk 1623 (let! v20 := deref v6 in let! v21 := deref (Distance_distance (VisibilityGroup_maxVisibility v20)) in Ok (near v21 (dlit (6) 1) (dlit (1) 200))) (
    chk 1624 (let! v22 := deref v6 in Ok (DistModifier_beq (distModifier (VisibilityGroup_maxVisibility v22)) DM_MORE_THAN)) (
    chk 1626 (let! v23 := deref v6 in let! v24 := (VisibilityGroup_sectorDirections v23) in Ok (N.eqb (N.of_nat (List.length v24)) 0%N)) (
    chk 1627 (let! v25 := deref v6 in Ok (ViTrend_beq (vi_trend v25) Vt_NONE)) (
    chk 1628 (let! v26 := deref v6 in Ok (VisibilityGroup_isValid v26)) (
    None)))))))))))))))))))))).

Definition t_VisibilityGroup_parseRmkVisModifierFractionVariableModifierInteger : option N :=
    step 1632 ((VisibilityGroup_parse "VIS" RP_RMK md_default)) (fun v1 => 
    chk 1633 (Ok (has_value v1)) (
    step 1635 (let! v2 := deref v1 in VisibilityGroup_append v2 "M1/4VP6" RP_RMK md_default) (fun p => let v3 := Some (fst p) in let v4 := snd p in 
    chk 1635 (Ok (AppendResult_beq v4 APPENDED)) (
    step 1637 (let! v5 := deref v3 in VisibilityGroup_append v5 "" RP_RMK md_default) (fun p => let v6 := Some (fst p) in let v7 := snd p in 
    chk 1637 (Ok (AppendResult_beq v7 NOT_APPENDED)) (
    chk 1640 (let! v8 := deref v6 in Ok (ViType_beq (vi_type v8) Vi_VARIABLE_PREVAILING)) (
    chk 1641 (let! v9 := deref v6 in Ok (negb (Distance_isReported (VisibilityGroup_visibility v9)))) (
    chk 1642 (let! v10 := deref v6 in Ok (negb (has_value (vi_dir v10)))) (
    chk 1644 (let! v11 := deref v6 in Ok (DistModifier_beq (distModifier (VisibilityGroup_minVisibility v11)) DM_LESS_THAN)) (
    chk 1645 (let! v12 := deref v6 in Ok (Distance_isReported (VisibilityGroup_minVisibility v12))) (
    chk 1646 (let! v13 := deref v6 in Ok (has_value (Distance_distance (VisibilityGroup_minVisibility v13)))) (
    chk 1647 (let! v14 := deref v6 in let! v15 := deref (Distance_distance (VisibilityGroup_minVisibility v14)) in Ok (near v15 (dlit (1) 4) (dlit (1) 200))) (
    chk 1648 (let! v16 := deref v6 in Ok (DistUnit_beq (distUnit (VisibilityGroup_minVisibility v16)) STATUTE_MILES)) (
    chk 1650 (let! v17 := deref v6 in Ok (DistUnit_beq (distUnit (VisibilityGroup_maxVisibility v17)) STATUTE_MILES)) (
    chk 1651 (let! v18 := deref v6 in Ok (Distance_isReported (VisibilityGroup_maxVisibility v18))) (
    chk 1652 (let! v19 := deref v6 in Ok (has_value (Distance_distance (VisibilityGroup_maxVisibility v19)))) (
    chk 1653 (let! v20 := deref v6 in let! v21 := deref (Distance_distance (VisibilityGroup_maxVisibility v20)) in Ok (near v21 (dlit (6) 1) (dlit (1) 200))) (
    chk 1654 (let! v22 := deref v6 in Ok (DistModifier_beq (distModifier (VisibilityGroup_maxVisibility v22)) DM_MORE_THAN)) (
    chk 1656 (let! v23 := deref v6 in let! v24 := (VisibilityGroup_sectorDirections v23) in Ok (N.eqb (N.of_nat (List.length v24)) 0%N)) (
    chk 1657 (let! v25 := deref v6 in Ok (ViTrend_beq (vi_trend v25) Vt_NONE)) (
    chk 1658 (let! v26 := deref v6 in Ok (VisibilityGroup_isValid v26)) (
    None)))))))))))))))))))))).

Definition t_VisibilityGroup_parseRmkVisModifierFractionVariableIntegerFraction : option N :=
    step 1662 ((VisibilityGroup_parse "VIS" RP_RMK md_default)) (fun v1 => 
    chk 1663 (Ok (has_value v1)) (
    step 1665 (let! v2 := deref v1 in VisibilityGroup_append v2 "M1/4V1" RP_RMK md_default) (fun p => let v3 := Some (fst p) in let v4 := snd p in 
    chk 1665 (Ok (AppendResult_beq v4 APPENDED)) (
    step 1667 (let! v5 := deref v3 in VisibilityGroup_append v5 "3/4" RP_RMK md_default) (fun p => let v6 := Some (fst p) in let v7 := snd p in 
    chk 1667 (Ok (AppendResult_beq v7 APPENDED)) (
    step 1669 (let! v8 := deref v6 in VisibilityGroup_append v8 "" RP_RMK md_default) (fun p => let v9 := Some (fst p) in let v10 := snd p in 
    chk 1669 (Ok (AppendResult_beq v10 NOT_APPENDED)) (
    chk 1672 (let! v11 := deref v9 in Ok (ViType_beq (vi_type v11) Vi_VARIABLE_PREVAILING)) (
    chk 1673 (let! v12 := deref v9 in Ok (negb (Distance_isReported (VisibilityGroup_visibility v12)))) (
    chk 1674 (let! v13 := deref v9 in Ok (negb (has_value (vi_dir v13)))) (
    chk 1676 (let! v14 := deref v9 in Ok (DistUnit_beq (distUnit (VisibilityGroup_minVisibility v14)) STATUTE_MILES)) (
    chk 1677 (let! v15 := deref v9 in Ok (Distance_isReported (VisibilityGroup_minVisibility v15))) (
    chk 1678 (let! v16 := deref v9 in Ok (has_value (Distance_distance (VisibilityGroup_minVisibility v16)))) (
    chk 1679 (let! v17 := deref v9 in let! v18 := deref (Distance_distance (VisibilityGroup_minVisibility v17)) in Ok (near v18 (dlit (1) 4) (dlit (1) 200))) (
    chk 1680 (let! v19 := deref v9 in Ok (DistModifier_beq (distModifier (VisibilityGroup_minVisibility v19)) DM_LESS_THAN)) (
    chk 1682 (let! v20 := deref v9 in Ok (DistUnit_beq (distUnit (VisibilityGroup_maxVisibility v20)) STATUTE_MILES)) (
    chk 1683 (let! v21 := deref v9 in Ok (Distance_isReported (VisibilityGroup_maxVisibility v21))) (
    chk 1684 (let! v22 := deref v9 in Ok (has_value (Distance_distance (VisibilityGroup_maxVisibility v22)))) (
    chk 1685 (let! v23 := deref v9 in let! v24 := deref (Distance_distance (VisibilityGroup_maxVisibility v23)) in Ok (near v24 (dlit (7) 4) (dlit (1) 200))) (
    chk 1686 (let! v25 := deref v9 in Ok (DistModifier_beq (distModifier (VisibilityGroup_maxVisibility v25)) DM_NONE)) (
    chk 1688 (let! v26 := deref v9 in let! v27 := (VisibilityGroup_sectorDirections v26) in Ok (N.eqb (N.of_nat (List.length v27)) 0%N)) (
    chk 1689 (let! v28 := deref v9 in Ok (ViTrend_beq (vi_trend v28) Vt_NONE)) (
    chk 1690 (let! v29 := deref v9 in Ok (VisibilityGroup_isValid v29)) (
    None)))))))))))))))))))))))).

Definition t_VisibilityGroup_parseRmkVisModifierIntegerFractionVariableModifierIntegerFraction : option N :=
    step 1694 ((VisibilityGroup_parse "VIS" RP_RMK md_default)) (fun v1 => 
    chk 1695 (Ok (has_value v1)) (
    step 1697 (let! v2 := deref v1 in VisibilityGroup_append v2 "M1" RP_RMK md_default) (fun p => let v3 := Some (fst p) in let v4 := snd p in 
    chk 1697 (Ok (AppendResult_beq v4 APPENDED)) (
    step 1699 (let! v5 := deref v3 in VisibilityGroup_append v5 "1/4VP1" RP_RMK md_default) (fun p => let v6 := Some (fst p) in let v7 := snd p in 
    chk 1699 (Ok (AppendResult_beq v7 APPENDED)) (
    step 1701 (let! v8 := deref v6 in VisibilityGroup_append v8 "3/4" RP_RMK md_default) (fun p => let v9 := Some (fst p) in let v10 := snd p in 
    chk 1701 (Ok (AppendResult_beq v10 APPENDED)) (
    step 1703 (let! v11 := deref v9 in VisibilityGroup_append v11 "" RP_RMK md_default) (fun p => let v12 := Some (fst p) in let v13 := snd p in 
    chk 1703 (Ok (AppendResult_beq v13 NOT_APPENDED)) (
    chk 1706 (let! v14 := deref v12 in Ok (ViType_beq (vi_type v14) Vi_VARIABLE_PREVAILING)) (
    chk 1707 (let! v15 := deref v12 in Ok (negb (Distance_isReported (VisibilityGroup_visibility v15)))) (
    chk 1708 (let! v16 := deref v12 in Ok (negb (has_value (vi_dir v16)))) (
    chk 1710 (let! v17 := deref v12 in Ok (DistUnit_beq (distUnit (VisibilityGroup_minVisibility v17)) STATUTE_MILES)) (
    chk 1711 (let! v18 := deref v12 in Ok (Distance_isReported (VisibilityGroup_minVisibility v18))) (
    chk 1712 (let! v19 := deref v12 in Ok (has_value (Distance_distance (VisibilityGroup_minVisibility v19)))) (
    chk 1713 (let! v20 := deref v12 in let! v21 := deref (Distance_distance (VisibilityGroup_minVisibility v20)) in Ok (near v21 (dlit (5) 4) (dlit (1) 200))) (
    chk 1714 (let! v22 := deref v12 in Ok (DistModifier_beq (distModifier (VisibilityGroup_minVisibility v22)) DM_LESS_THAN)) (
    chk 1716 (let! v23 := deref v12 in Ok (DistUnit_beq (distUnit (VisibilityGroup_maxVisibility v23)) STATUTE_MILES)) (
    chk 1717 (let! v24 := deref v12 in Ok (Distance_isReported (VisibilityGroup_maxVisibility v24))) (
    chk 1718 (let! v25 := deref v12 in Ok (has_value (Distance_distance (VisibilityGroup_maxVisibility v25)))) (
    chk 1719 (let! v26 := deref v12 in let! v27 := deref (Distance_distance (VisibilityGroup_maxVisibility v26)) in Ok (near v27 (dlit (7) 4) (dlit (1) 200))) (
    chk 1720 (let! v28 := deref v12 in Ok (DistModifier_beq (distModifier (VisibilityGroup_maxVisibility v28)) DM_MORE_THAN)) (
    chk 1722 (let! v29 := deref v12 in let! v30 := (VisibilityGroup_sectorDirections v29) in Ok (N.eqb (N.of_nat (List.length v30)) 0%N)) (
    chk 1723 (let! v31 := deref v12 in Ok (ViTrend_beq (vi_trend v31) Vt_NONE)) (
    chk 1724 (let! v32 := deref v12 in Ok (VisibilityGroup_isValid v32)) (
    None)))))))))))))))))))))))))).

Definition t_VisibilityGroup_parseRmkVisVariableMeters : option N :=
    step 1734 ((VisibilityGroup_parse "VIS" RP_RMK md_default)) (fun v1 => 
    chk 1735 (Ok (has_value v1)) (
    step 1737 (let! v2 := deref v1 in VisibilityGroup_append v2 "1500V3000" RP_RMK md_default) (fun p => let v3 := Some (fst p) in let v4 := snd p in 
    chk 1737 (Ok (AppendResult_beq v4 APPENDED)) (
    step 1739 (let! v5 := deref v3 in VisibilityGroup_append v5 "" RP_RMK md_default) (fun p => let v6 := Some (fst p) in let v7 := snd p in 
    chk 1739 (Ok (AppendResult_beq v7 NOT_APPENDED)) (
    chk 1742 (let! v8 := deref v6 in Ok (ViType_beq (vi_type v8) Vi_VARIABLE_PREVAILING)) (
    chk 1743 (let! v9 := deref v6 in Ok (negb (has_value (vi_dir v9)))) (
    chk 1745 (let! v10 := deref v6 in Ok (negb (Distance_isReported (VisibilityGroup_visibility v10)))) (
    chk 1747 (let! v11 := deref v6 in Ok (Distance_isReported (VisibilityGroup_minVisibility v11))) (
    chk 1748 (let! v12 := deref v6 in Ok (has_value (Distance_distance (VisibilityGroup_minVisibility v12)))) (
    chk 1749 (let! v13 := deref v6 in let! v14 := deref (Distance_distance (VisibilityGroup_minVisibility v13)) in Ok (near v14 (dlit (1500) 1) (dlit (1) 200))) (
    chk 1750 (let! v15 := deref v6 in Ok (DistModifier_beq (distModifier (VisibilityGroup_minVisibility v15)) DM_NONE)) (
    chk 1751 (let! v16 := deref v6 in Ok (DistUnit_beq (distUnit (VisibilityGroup_minVisibility v16)) METERS)) (
    chk 1753 (let! v17 := deref v6 in Ok (Distance_isReported (VisibilityGroup_maxVisibility v17))) (
    chk 1754 (let! v18 := deref v6 in Ok (has_value (Distance_distance (VisibilityGroup_maxVisibility v18)))) (
    chk 1755 (let! v19 := deref v6 in let! v20 := deref (Distance_distance (VisibilityGroup_maxVisibility v19)) in Ok (near v20 (dlit (3000) 1) (dlit (1) 200))) (
    chk 1756 (let! v21 := deref v6 in Ok (DistModifier_beq (distModifier (VisibilityGroup_maxVisibility v21)) DM_NONE)) (
    chk 1757 (let! v22 := deref v6 in Ok (DistUnit_beq (distUnit (VisibilityGroup_maxVisibility v22)) METERS)) (
    chk 1759 (let! v23 := deref v6 in let! v24 := (VisibilityGroup_sectorDirections v23) in Ok (N.eqb (N.of_nat (List.length v24)) 0%N)) (
    chk 1760 (let! v25 := deref v6 in Ok (ViTrend_beq (vi_trend v25) Vt_NONE)) (
    chk 1761 (let! v26 := deref v6 in Ok (VisibilityGroup_isValid v26)) (
    None)))))))))))))))))))))).

Definition t_VisibilityGroup_incompleteRmkVis : option N :=
    step 1772 ((VisibilityGroup_parse "VIS" RP_RMK md_default)) (fun v1 => 
    chk 1773 (Ok (has_value v1)) (
    step 1774 (let! v2 := deref v1 in VisibilityGroup_append v2 "2" RP_RMK md_default) (fun p => let v3 := Some (fst p) in let v4 := snd p in 
    chk 1774 (Ok (AppendResult_beq v4 APPENDED)) (
    chk 1776 (let! v5 := deref v3 in Ok (negb (VisibilityGroup_isValid v5))) (
    None))))).

Definition t_VisibilityGroup_parseRmkVisIncorrectFraction : option N :=
    step 1780 ((VisibilityGroup_parse "VIS" RP_RMK md_default)) (fun v1 => 
    chk 1781 (Ok (has_value v1)) (
    step 1782 (let! v2 := deref v1 in VisibilityGroup_append v2 "0/2" RP_RMK md_default) (fun p => let v3 := Some (fst p) in let v4 := snd p in 
    chk 1782 (Ok (AppendResult_beq v4 GROUP_INVALIDATED)) (
    step 1785 ((VisibilityGroup_parse "VIS" RP_RMK md_default)) (fun v5 => 
    chk 1786 (Ok (has_value v5)) (
    step 1787 (let! v6 := deref v5 in VisibilityGroup_append v6 "0/2V2" RP_RMK md_default) (fun p => let v7 := Some (fst p) in let v8 := snd p in 
    chk 1787 (Ok (AppendResult_beq v8 GROUP_INVALIDATED)) (
    step 1790 ((VisibilityGroup_parse "VIS" RP_RMK md_default)) (fun v9 => 
    chk 1791 (Ok (has_value v9)) (
    step 1792 (let! v10 := deref v9 in VisibilityGroup_append v10 "1/8V0/4" RP_RMK md_default) (fun p => let v11 := Some (fst p) in let v12 := snd p in 
    chk 1792 (Ok (AppendResult_beq v12 GROUP_INVALIDATED)) (
    step 1795 ((VisibilityGroup_parse "VIS" RP_RMK md_default)) (fun v13 => 
    chk 1796 (Ok (has_value v13)) (
    step 1797 (let! v14 := deref v13 in VisibilityGroup_append v14 "1/0" RP_RMK md_default) (fun p => let v15 := Some (fst p) in let v16 := snd p in 
    chk 1797 (Ok (AppendResult_beq v16 GROUP_INVALIDATED)) (
    step 1800 ((VisibilityGroup_parse "VIS" RP_RMK md_default)) (fun v17 => 
    chk 1801 (Ok (has_value v17)) (
    step 1802 (let! v18 := deref v17 in VisibilityGroup_append v18 "1/0V2" RP_RMK md_default) (fun p => let v19 := Some (fst p) in let v20 := snd p in 
    chk 1802 (Ok (AppendResult_beq v20 GROUP_INVALIDATED)) (
    step 1805 ((VisibilityGroup_parse "VIS" RP_RMK md_default)) (fun v21 => 
    chk 1806 (Ok (has_value v21)) (
    step 1807 (let! v22 := deref v21 in VisibilityGroup_append v22 "1/8V1/0" RP_RMK md_default) (fun p => let v23 := Some (fst p) in let v24 := snd p in 
    chk 1807 (Ok (AppendResult_beq v24 GROUP_INVALIDATED)) (
    None)))))))))))))))))))))))).

Definition t_VisibilityGroup_parseRmkAppendOtherToVis : option N :=
    step 1812 ((VisibilityGroup_parse "VIS" RP_RMK md_default)) (fun v1 => 
    chk 1813 (Ok (has_value v1)) (
    step 1814 (let! v2 := deref v1 in VisibilityGroup_append v2 "100" RP_RMK md_default) (fun p => let v3 := Some (fst p) in let v4 := snd p in 
    chk 1814 (Ok (AppendResult_beq v4 GROUP_INVALIDATED)) (
    step 1817 ((VisibilityGroup_parse "VIS" RP_RMK md_default)) (fun v5 => 
    chk 1818 (Ok (has_value v5)) (
    step 1819 (let! v6 := deref v5 in VisibilityGroup_append v6 "1/8SM" RP_RMK md_default) (fun p => let v7 := Some (fst p) in let v8 := snd p in 
    chk 1819 (Ok (AppendResult_beq v8 GROUP_INVALIDATED)) (
    step 1822 ((VisibilityGroup_parse "VIS" RP_RMK md_default)) (fun v9 => 
    chk 1823 (Ok (has_value v9)) (
    step 1824 (let! v10 := deref v9 in VisibilityGroup_append v10 "1500S" RP_RMK md_default) (fun p => let v11 := Some (fst p) in let v12 := snd p in 
    chk 1824 (Ok (AppendResult_beq v12 GROUP_INVALIDATED)) (
    step 1827 ((VisibilityGroup_parse "VIS" RP_RMK md_default)) (fun v13 => 
    chk 1828 (Ok (has_value v13)) (
    step 1829 (let! v14 := deref v13 in VisibilityGroup_append v14 "////" RP_RMK md_default) (fun p => let v15 := Some (fst p) in let v16 := snd p in 
    chk 1829 (Ok (AppendResult_beq v16 GROUP_INVALIDATED)) (
    step 1832 ((VisibilityGroup_parse "VIS" RP_RMK md_default)) (fun v17 => 
    chk 1833 (Ok (has_value v17)) (
    step 1834 (let! v18 := deref v17 in VisibilityGroup_append v18 "////SM" RP_RMK md_default) (fun p => let v19 := Some (fst p) in let v20 := snd p in 
    chk 1834 (Ok (AppendResult_beq v20 GROUP_INVALIDATED)) (
    None)))))))))))))))))))).

Definition t_VisibilityGroup_parseRmkAppendOtherToVisInteger : option N :=
    step 1839 ((VisibilityGroup_parse "VIS" RP_RMK md_default)) (fun v1 => 
    chk 1840 (Ok (has_value v1)) (
    step 1841 (let! v2 := deref v1 in VisibilityGroup_append v2 "1" RP_RMK md_default) (fun p => let v3 := Some (fst p) in let v4 := snd p in 
    chk 1841 (Ok (AppendResult_beq v4 APPENDED)) (
    step 1842 (let! v5 := deref v3 in VisibilityGroup_append v5 "100" RP_RMK md_default) (fun p => let v6 := Some (fst p) in let v7 := snd p in 
    chk 1842 (Ok (AppendResult_beq v7 GROUP_INVALIDATED)) (
    step 1845 ((VisibilityGroup_parse "VIS" RP_RMK md_default)) (fun v8 => 
    chk 1846 (Ok (has_value v8)) (
    step 1847 (let! v9 := deref v8 in VisibilityGroup_append v9 "1" RP_RMK md_default) (fun p => let v10 := Some (fst p) in let v11 := snd p in 
    chk 1847 (Ok (AppendResult_beq v11 APPENDED)) (
    step 1848 (let! v12 := deref v10 in VisibilityGroup_append v12 "1/8SM" RP_RMK md_default) (fun p => let v13 := Some (fst p) in let v14 := snd p in 
    chk 1848 (Ok (AppendResult_beq v14 GROUP_INVALIDATED)) (
    step 1851 ((VisibilityGroup_parse "VIS" RP_RMK md_default)) (fun v15 => 
    chk 1852 (Ok (has_value v15)) (
    step 1853 (let! v16 := deref v15 in VisibilityGroup_append v16 "1" RP_RMK md_default) (fun p => let v17 := Some (fst p) in let v18 := snd p in 
    chk 1853 (Ok (AppendResult_beq v18 APPENDED)) (
    step 1854 (let! v19 := deref v17 in VisibilityGroup_append v19 "1500" RP_RMK md_default) (fun p => let v20 := Some (fst p) in let v21 := snd p in 
    chk 1854 (Ok (AppendResult_beq v21 GROUP_INVALIDATED)) (
    step 1857 ((VisibilityGroup_parse "VIS" RP_RMK md_default)) (fun v22 => 
    chk 1858 (Ok (has_value v22)) (
    step 1859 (let! v23 := deref v22 in VisibilityGroup_append v23 "1" RP_RMK md_default) (fun p => let v24 := Some (fst p) in let v25 := snd p in 
    chk 1859 (Ok (AppendResult_beq v25 APPENDED)) (
    step 1860 (let! v26 := deref v24 in VisibilityGroup_append v26 "////" RP_RMK md_default) (fun p => let v27 := Some (fst p) in let v28 := snd p in 
    chk 1860 (Ok (AppendResult_beq v28 GROUP_INVALIDATED)) (
    step 1863 ((VisibilityGroup_parse "VIS" RP_RMK md_default)) (fun v29 => 
    chk 1864 (Ok (has_value v29)) (
    step 1865 (let! v30 := deref v29 in VisibilityGroup_append v30 "1" RP_RMK md_default) (fun p => let v31 := Some (fst p) in let v32 := snd p in 
    chk 1865 (Ok (AppendResult_beq v32 APPENDED)) (
    step 1866 (let! v33 := deref v31 in VisibilityGroup_append v33 "////SM" RP_RMK md_default) (fun p => let v34 := Some (fst p) in let v35 := snd p in 
    chk 1866 (Ok (AppendResult_beq v35 GROUP_INVALIDATED)) (
    step 1869 ((VisibilityGroup_parse "VIS" RP_RMK md_default)) (fun v36 => 
    chk 1870 (Ok (has_value v36)) (
    step 1871 (let! v37 := deref v36 in VisibilityGroup_append v37 "1" RP_RMK md_default) (fun p => let v38 := Some (fst p) in let v39 := snd p in 
    chk 1871 (Ok (AppendResult_beq v39 APPENDED)) (
    step 1872 (let! v40 := deref v38 in VisibilityGroup_append v40 "2" RP_RMK md_default) (fun p => let v41 := Some (fst p) in let v42 := snd p in 
    chk 1872 (Ok (AppendResult_beq v42 GROUP_INVALIDATED)) (
    None)))))))))))))))))))))))))))))))))))).

Definition t_VisibilityGroup_parseRmkVisIncorrectMeters : option N :=
    step 1877 ((VisibilityGroup_parse "VIS" RP_RMK md_default)) (fun v1 => 
    chk 1878 (Ok (has_value v1)) (
    step 1879 (let! v2 := deref v1 in VisibilityGroup_append v2 "1000" RP_RMK md_default) (fun p => let v3 := Some (fst p) in let v4 := snd p in 
    chk 1879 (Ok (AppendResult_beq v4 APPENDED)) (
    step 1881 (let! v5 := deref v3 in VisibilityGroup_append v5 "" RP_RMK md_default) (fun p => let v6 := Some (fst p) in let v7 := snd p in 
    chk 1881 (Ok (AppendResult_beq v7 GROUP_INVALIDATED)) (
    step 1884 ((VisibilityGroup_parse "VIS" RP_RMK md_default)) (fun v8 => 
    chk 1885 (Ok (has_value v8)) (
    step 1886 (let! v9 := deref v8 in VisibilityGroup_append v9 "1000W" RP_RMK md_default) (fun p => let v10 := Some (fst p) in let v11 := snd p in 
    chk 1886 (Ok (AppendResult_beq v11 GROUP_INVALIDATED)) (
    step 1889 ((VisibilityGroup_parse "VIS" RP_RMK md_default)) (fun v12 => 
    chk 1890 (Ok (has_value v12)) (
    step 1891 (let! v13 := deref v12 in VisibilityGroup_append v13 "01000V02000" RP_RMK md_default) (fun p => let v14 := Some (fst p) in let v15 := snd p in 
    chk 1891 (Ok (AppendResult_beq v15 GROUP_INVALIDATED)) (
    step 1894 ((VisibilityGroup_parse "VIS" RP_RMK md_default)) (fun v16 => 
    chk 1895 (Ok (has_value v16)) (
    step 1896 (let! v17 := deref v16 in VisibilityGroup_append v17 "500V800" RP_RMK md_default) (fun p => let v18 := Some (fst p) in let v19 := snd p in 
    chk 1896 (Ok (AppendResult_beq v19 GROUP_INVALIDATED)) (
    step 1899 ((VisibilityGroup_parse "VIS" RP_RMK md_default)) (fun v20 => 
    chk 1900 (Ok (has_value v20)) (
    step 1901 (let! v21 := deref v20 in VisibilityGroup_append v21 "900V1800" RP_RMK md_default) (fun p => let v22 := Some (fst p) in let v23 := snd p in 
    chk 1901 (Ok (AppendResult_beq v23 GROUP_INVALIDATED)) (
    step 1904 ((VisibilityGroup_parse "VIS" RP_RMK md_default)) (fun v24 => 
    chk 1905 (Ok (has_value v24)) (
    step 1906 (let! v25 := deref v24 in VisibilityGroup_append v25 "0800V900" RP_RMK md_default) (fun p => let v26 := Some (fst p) in let v27 := snd p in 
    chk 1906 (Ok (AppendResult_beq v27 GROUP_INVALIDATED)) (
    step 1909 ((VisibilityGroup_parse "VIS" RP_RMK md_default)) (fun v28 => 
    chk 1910 (Ok (has_value v28)) (
    step 1911 (let! v29 := deref v28 in VisibilityGroup_append v29 "M0800V5000" RP_RMK md_default) (fun p => let v30 := Some (fst p) in let v31 := snd p in 
    chk 1911 (Ok (AppendResult_beq v31 GROUP_INVALIDATED)) (
    step 1914 ((VisibilityGroup_parse "VIS" RP_RMK md_default)) (fun v32 => 
    chk 1915 (Ok (has_value v32)) (
    step 1916 (let! v33 := deref v32 in VisibilityGroup_append v33 "0800VP5000" RP_RMK md_default) (fun p => let v34 := Some (fst p) in let v35 := snd p in 
    chk 1916 (Ok (AppendResult_beq v35 GROUP_INVALIDATED)) (
    None)))))))))))))))))))))))))))))))))).

Definition t_VisibilityGroup_parseRmkVisVariableMetersIncorrectNotReported : option N :=
    step 1921 ((VisibilityGroup_parse "VIS" RP_RMK md_default)) (fun v1 => 
    chk 1922 (Ok (has_value v1)) (
    step 1923 (let! v2 := deref v1 in VisibilityGroup_append v2 "////V3000" RP_RMK md_default) (fun p => let v3 := Some (fst p) in let v4 := snd p in 
    chk 1923 (Ok (AppendResult_beq v4 GROUP_INVALIDATED)) (
    step 1926 ((VisibilityGroup_parse "VIS" RP_RMK md_default)) (fun v5 => 
    chk 1927 (Ok (has_value v5)) (
    step 1928 (let! v6 := deref v5 in VisibilityGroup_append v6 "1200V////" RP_RMK md_default) (fun p => let v7 := Some (fst p) in let v8 := snd p in 
    chk 1928 (Ok (AppendResult_beq v8 GROUP_INVALIDATED)) (
    step 1931 ((VisibilityGroup_parse "VIS" RP_RMK md_default)) (fun v9 => 
    chk 1932 (Ok (has_value v9)) (
    step 1933 (let! v10 := deref v9 in VisibilityGroup_append v10 "////V////" RP_RMK md_default) (fun p => let v11 := Some (fst p) in let v12 := snd p in 
    chk 1933 (Ok (AppendResult_beq v12 GROUP_INVALIDATED)) (
    step 1936 ((VisibilityGroup_parse "VIS" RP_RMK md_default)) (fun v13 => 
    chk 1937 (Ok (has_value v13)) (
    step 1938 (let! v14 := deref v13 in VisibilityGroup_append v14 "M////V5000" RP_RMK md_default) (fun p => let v15 := Some (fst p) in let v16 := snd p in 
    chk 1938 (Ok (AppendResult_beq v16 GROUP_INVALIDATED)) (
    None)))))))))))))))).

Definition t_VisibilityGroup_invalidVarVisGroupWrongVariableRangeMiles : option N :=
    step 1943 ((VisibilityGroup_parse "VIS" RP_RMK md_default)) (fun v1 => 
    chk 1944 (Ok (has_value v1)) (
    step 1945 (let! v2 := deref v1 in VisibilityGroup_append v2 "1/2V7/16" RP_RMK md_default) (fun p => let v3 := Some (fst p) in let v4 := snd p in 
    chk 1945 (Ok (AppendResult_beq v4 APPENDED)) (
    step 1947 (let! v5 := deref v3 in VisibilityGroup_append v5 "" RP_RMK md_default) (fun p => let v6 := Some (fst p) in let v7 := snd p in 
    chk 1947 (Ok (AppendResult_beq v7 NOT_APPENDED)) (
    chk 1949 (let! v8 := deref v6 in Ok (negb (VisibilityGroup_isValid v8))) (
    None))))))).

Definition t_VisibilityGroup_invalidVarVisGroupWrongVariableRangeMeters : option N :=
    step 1953 ((VisibilityGroup_parse "VIS" RP_RMK md_default)) (fun v1 => 
    chk 1954 (Ok (has_value v1)) (
    step 1955 (let! v2 := deref v1 in VisibilityGroup_append v2 "1500V1400" RP_RMK md_default) (fun p => let v3 := Some (fst p) in let v4 := snd p in 
    chk 1955 (Ok (AppendResult_beq v4 APPENDED)) (
    step 1957 (let! v5 := deref v3 in VisibilityGroup_append v5 "" RP_RMK md_default) (fun p => let v6 := Some (fst p) in let v7 := snd p in 
    chk 1957 (Ok (AppendResult_beq v7 NOT_APPENDED)) (
    chk 1959 (let! v8 := deref v6 in Ok (negb (VisibilityGroup_isValid v8))) (
    None))))))).

Definition t_VisibilityGroup_parseRmkVisIncorrectNotVariable : option N :=
    step 1973 ((VisibilityGroup_parse "VIS" RP_RMK md_default)) (fun v1 => 
    chk 1974 (Ok (has_value v1)) (
    step 1975 (let! v2 := deref v1 in VisibilityGroup_append v2 "2" RP_RMK md_default) (fun p => let v3 := Some (fst p) in let v4 := snd p in 
    chk 1975 (Ok (AppendResult_beq v4 APPENDED)) (
    step 1976 (let! v5 := deref v3 in VisibilityGroup_append v5 "" RP_RMK md_default) (fun p => let v6 := Some (fst p) in let v7 := snd p in 
    chk 1976 (Ok (AppendResult_beq v7 GROUP_INVALIDATED)) (
    step 1978 ((VisibilityGroup_parse "VIS" RP_RMK md_default)) (fun v8 => 
    chk 1979 (Ok (has_value v8)) (
    step 1980 (let! v9 := deref v8 in VisibilityGroup_append v9 "1/2" RP_RMK md_default) (fun p => let v10 := Some (fst p) in let v11 := snd p in 
    chk 1980 (Ok (AppendResult_beq v11 APPENDED)) (
    step 1981 (let! v12 := deref v10 in VisibilityGroup_append v12 "" RP_RMK md_default) (fun p => let v13 := Some (fst p) in let v14 := snd p in 
    chk 1981 (Ok (AppendResult_beq v14 GROUP_INVALIDATED)) (
    step 1983 ((VisibilityGroup_parse "VIS" RP_RMK md_default)) (fun v15 => 
    chk 1984 (Ok (has_value v15)) (
    step 1985 (let! v16 := deref v15 in VisibilityGroup_append v16 "2" RP_RMK md_default) (fun p => let v17 := Some (fst p) in let v18 := snd p in 
    chk 1985 (Ok (AppendResult_beq v18 APPENDED)) (
    step 1986 (let! v19 := deref v17 in VisibilityGroup_append v19 "1/2" RP_RMK md_default) (fun p => let v20 := Some (fst p) in let v21 := snd p in 
    chk 1986 (Ok (AppendResult_beq v21 APPENDED)) (
    step 1987 (let! v22 := deref v20 in VisibilityGroup_append v22 "" RP_RMK md_default) (fun p => let v23 := Some (fst p) in let v24 := snd p in 
    chk 1987 (Ok (AppendResult_beq v24 GROUP_INVALIDATED)) (
    None)))))))))))))))))))).

Definition t_VisibilityGroup_parseRmkVisIncorrectNonVariableMeters : option N :=
    step 1991 ((VisibilityGroup_parse "VIS" RP_RMK md_default)) (fun v1 => 
    chk 1992 (Ok (has_value v1)) (
    step 1993 (let! v2 := deref v1 in VisibilityGroup_append v2 "1500" RP_RMK md_default) (fun p => let v3 := Some (fst p) in let v4 := snd p in 
    chk 1993 (Ok (AppendResult_beq v4 APPENDED)) (
    step 1994 (let! v5 := deref v3 in VisibilityGroup_append v5 "" RP_RMK md_default) (fun p => let v6 := Some (fst p) in let v7 := snd p in 
    chk 1994 (Ok (AppendResult_beq v7 GROUP_INVALIDATED)) (
    None)))))).

Definition t_VisibilityGroup_parseRmkVisDirectionalIntegerVariableInteger : option N :=
    step 2005 ((VisibilityGroup_parse "VIS" RP_RMK md_default)) (fun v1 => 
    chk 2006 (Ok (has_value v1)) (
    step 2008 (let! v2 := deref v1 in VisibilityGroup_append v2 "W" RP_RMK md_default) (fun p => let v3 := Some (fst p) in let v4 := snd p in 
    chk 2008 (Ok (AppendResult_beq v4 APPENDED)) (
    step 2010 (let! v5 := deref v3 in VisibilityGroup_append v5 "1V3" RP_RMK md_default) (fun p => let v6 := Some (fst p) in let v7 := snd p in 
    chk 2010 (Ok (AppendResult_beq v7 APPENDED)) (
    step 2012 (let! v8 := deref v6 in VisibilityGroup_append v8 "" RP_RMK md_default) (fun p => let v9 := Some (fst p) in let v10 := snd p in 
    chk 2012 (Ok (AppendResult_beq v10 NOT_APPENDED)) (
    chk 2015 (let! v11 := deref v9 in Ok (ViType_beq (vi_type v11) Vi_VARIABLE_DIRECTIONAL)) (
    chk 2016 (let! v12 := deref v9 in Ok (negb (Distance_isReported (VisibilityGroup_visibility v12)))) (
    chk 2017 (let! v13 := deref v9 in Ok (has_value (vi_dir v13))) (
    chk 2018 (let! v14 := deref v9 in let! v15 := deref (vi_dir v14) in Ok (DirType_beq (dirType v15) DT_VALUE_CARDINAL)) (
    chk 2019 (let! v16 := deref v9 in let! v17 := deref (vi_dir v16) in Ok (Cardinal_beq (Direction_cardinal v17 false) Cd_W)) (
    chk 2021 (let! v18 := deref v9 in Ok (negb (has_value (vi_rw v18)))) (
    chk 2023 (let! v19 := deref v9 in Ok (DistModifier_beq (distModifier (VisibilityGroup_minVisibility v19)) DM_NONE)) (
    chk 2024 (let! v20 := deref v9 in Ok (Distance_isReported (VisibilityGroup_minVisibility v20))) (
    chk 2025 (let! v21 := deref v9 in Ok (has_value (Distance_distance (VisibilityGroup_minVisibility v21)))) (
    chk 2026 (let! v22 := deref v9 in let! v23 := deref (Distance_distance (VisibilityGroup_minVisibility v22)) in Ok (near v23 (dlit (1) 1) (dlit (1) 200))) (
    chk 2027 (let! v24 := deref v9 in Ok (DistUnit_beq (distUnit (VisibilityGroup_minVisibility v24)) STATUTE_MILES)) (
    chk 2029 (let! v25 := deref v9 in Ok (DistModifier_beq (distModifier (VisibilityGroup_maxVisibility v25)) DM_NONE)) (
    chk 2030 (let! v26 := deref v9 in Ok (Distance_isReported (VisibilityGroup_maxVisibility v26))) (
    chk 2031 (let! v27 := deref v9 in Ok (has_value (Distance_distance (VisibilityGroup_maxVisibility v27)))) (
    chk 2032 (let! v28 := deref v9 in let! v29 := deref (Distance_distance (VisibilityGroup_maxVisibility v28)) in Ok (near v29 (dlit (3) 1) (dlit (1) 200))) (
    chk 2033 (let! v30 := deref v9 in Ok (DistUnit_beq (distUnit (VisibilityGroup_maxVisibility v30)) STATUTE_MILES)) (
    chk 2035 (let! v31 := deref v9 in let! v32 := (VisibilityGroup_sectorDirections v31) in Ok (N.eqb (N.of_nat (List.length v32)) 0%N)) (
    chk 2036 (let! v33 := deref v9 in Ok (ViTrend_beq (vi_trend v33) Vt_NONE)) (
    chk 2037 (let! v34 := deref v9 in Ok (VisibilityGroup_isValid v34)) (
    None))))))))))))))))))))))))))).

Definition t_VisibilityGroup_parseRmkVisDirectionalFractionVariableInteger : option N :=
    step 2041 ((VisibilityGroup_parse "VIS" RP_RMK md_default)) (fun v1 => 
    chk 2042 (Ok (has_value v1)) (
    step 2044 (let! v2 := deref v1 in VisibilityGroup_append v2 "W" RP_RMK md_default) (fun p => let v3 := Some (fst p) in let v4 := snd p in 
    chk 2044 (Ok (AppendResult_beq v4 APPENDED)) (
    step 2046 (let! v5 := deref v3 in VisibilityGroup_append v5 "1/2V3" RP_RMK md_default) (fun p => let v6 := Some (fst p) in let v7 := snd p in 
    chk 2046 (Ok (AppendResult_beq v7 APPENDED)) (
    step 2048 (let! v8 := deref v6 in VisibilityGroup_append v8 "" RP_RMK md_default) (fun p => let v9 := Some (fst p) in let v10 := snd p in 
    chk 2048 (Ok (AppendResult_beq v10 NOT_APPENDED)) (
    chk 2051 (let! v11 := deref v9 in Ok (ViType_beq (vi_type v11) Vi_VARIABLE_DIRECTIONAL)) (
    chk 2052 (let! v12 := deref v9 in Ok (negb (Distance_isReported (VisibilityGroup_visibility v12)))) (
    chk 2053 (let! v13 := deref v9 in Ok (has_value (vi_dir v13))) (
    chk 2054 (let! v14 := deref v9 in let! v15 := deref (vi_dir v14) in Ok (DirType_beq (dirType v15) DT_VALUE_CARDINAL)) (
    chk 2055 (let! v16 := deref v9 in let! v17 := deref (vi_dir v16) in Ok (Cardinal_beq (Direction_cardinal v17 false) Cd_W)) (
    chk 2057 (let! v18 := deref v9 in Ok (negb (has_value (vi_rw v18)))) (
    chk 2059 (let! v19 := deref v9 in Ok (DistModifier_beq (distModifier (VisibilityGroup_minVisibility v19)) DM_NONE)) (
    chk 2060 (let! v20 := deref v9 in Ok (Distance_isReported (VisibilityGroup_minVisibility v20))) (
    chk 2061 (let! v21 := deref v9 in Ok (has_value (Distance_distance (VisibilityGroup_minVisibility v21)))) (
    chk 2062 (let! v22 := deref v9 in let! v23 := deref (Distance_distance (VisibilityGroup_minVisibility v22)) in Ok (near v23 (dlit (1) 2) (dlit (1) 200))) (
    chk 2063 (let! v24 := deref v9 in Ok (DistUnit_beq (distUnit (VisibilityGroup_minVisibility v24)) STATUTE_MILES)) (
    chk 2065 (let! v25 := deref v9 in Ok (DistModifier_beq (distModifier (VisibilityGroup_maxVisibility v25)) DM_NONE)) (
    chk 2066 (let! v26 := deref v9 in Ok (Distance_isReported (VisibilityGroup_maxVisibility v26))) (
    chk 2067 (let! v27 := deref v9 in Ok (has_value (Distance_distance (VisibilityGroup_maxVisibility v27)))) (
    chk 2068 (let! v28 := deref v9 in let! v29 := deref (Distance_distance (VisibilityGroup_maxVisibility v28)) in Ok (near v29 (dlit (3) 1) (dlit (1) 200))) (
    chk 2069 (let! v30 := deref v9 in Ok (DistUnit_beq (distUnit (VisibilityGroup_maxVisibility v30)) STATUTE_MILES)) (
    chk 2071 (let! v31 := deref v9 in let! v32 := (VisibilityGroup_sectorDirections v31) in Ok (N.eqb (N.of_nat (List.length v32)) 0%N)) (
    chk 2072 (let! v33 := deref v9 in Ok (ViTrend_beq (vi_trend v33) Vt_NONE)) (
    chk 2073 (let! v34 := deref v9 in Ok (VisibilityGroup_isValid v34)) (
    None))))))))))))))))))))))))))).

Definition t_VisibilityGroup_parseRmkVisDirectionalFractionVariableFraction : option N :=
    step 2077 ((VisibilityGroup_parse "VIS" RP_RMK md_default)) (fun v1 => 
    chk 2078 (Ok (has_value v1)) (
    step 2080 (let! v2 := deref v1 in VisibilityGroup_append v2 "W" RP_RMK md_default) (fun p => let v3 := Some (fst p) in let v4 := snd p in 
    chk 2080 (Ok (AppendResult_beq v4 APPENDED)) (
    step 2082 (let! v5 := deref v3 in VisibilityGroup_append v5 "1/8V3/4" RP_RMK md_default) (fun p => let v6 := Some (fst p) in let v7 := snd p in 
    chk 2082 (Ok (AppendResult_beq v7 APPENDED)) (
    step 2084 (let! v8 := deref v6 in VisibilityGroup_append v8 "" RP_RMK md_default) (fun p => let v9 := Some (fst p) in let v10 := snd p in 
    chk 2084 (Ok (AppendResult_beq v10 NOT_APPENDED)) (
    chk 2087 (let! v11 := deref v9 in Ok (ViType_beq (vi_type v11) Vi_VARIABLE_DIRECTIONAL)) (
    chk 2088 (let! v12 := deref v9 in Ok (negb (Distance_isReported (VisibilityGroup_visibility v12)))) (
    chk 2089 (let! v13 := deref v9 in Ok (has_value (vi_dir v13))) (
    chk 2090 (let! v14 := deref v9 in let! v15 := deref (vi_dir v14) in Ok (DirType_beq (dirType v15) DT_VALUE_CARDINAL)) (
    chk 2091 (let! v16 := deref v9 in let! v17 := deref (vi_dir v16) in Ok (Cardinal_beq (Direction_cardinal v17 false) Cd_W)) (
    chk 2093 (let! v18 := deref v9 in Ok (negb (has_value (vi_rw v18)))) (
    chk 2095 (let! v19 := deref v9 in Ok (DistModifier_beq (distModifier (VisibilityGroup_minVisibility v19)) DM_NONE)) (
    chk 2096 (let! v20 := deref v9 in Ok (Distance_isReported (VisibilityGroup_minVisibility v20))) (
    chk 2097 (let! v21 := deref v9 in Ok (has_value (Distance_distance (VisibilityGroup_minVisibility v21)))) (
    chk 2098 (let! v22 := deref v9 in let! v23 := deref (Distance_distance (VisibilityGroup_minVisibility v22)) in Ok (near v23 (dlit (1) 8) (dlit (1) 200))) (
    chk 2099 (let! v24 := deref v9 in Ok (DistUnit_beq (distUnit (VisibilityGroup_minVisibility v24)) STATUTE_MILES)) (
    chk 2101 (let! v25 := deref v9 in Ok (DistModifier_beq (distModifier (VisibilityGroup_maxVisibility v25)) DM_NONE)) (
    chk 2102 (let! v26 := deref v9 in Ok (Distance_isReported (VisibilityGroup_maxVisibility v26))) (
    chk 2103 (let! v27 := deref v9 in Ok (has_value (Distance_distance (VisibilityGroup_maxVisibility v27)))) (
    chk 2104 (let! v28 := deref v9 in let! v29 := deref (Distance_distance (VisibilityGroup_maxVisibility v28)) in Ok (flt_eqb v29 (dlit (3) 4))) (
    chk 2105 (let! v30 := deref v9 in Ok (DistUnit_beq (distUnit (VisibilityGroup_maxVisibility v30)) STATUTE_MILES)) (
    chk 2107 (let! v31 := deref v9 in let! v32 := (VisibilityGroup_sectorDirections v31) in Ok (N.eqb (N.of_nat (List.length v32)) 0%N)) (
    chk 2108 (let! v33 := deref v9 in Ok (ViTrend_beq (vi_trend v33) Vt_NONE)) (
    chk 2109 (let! v34 := deref v9 in Ok (VisibilityGroup_isValid v34)) (
    None))))))))))))))))))))))))))).

Definition t_VisibilityGroup_parseRmkVisDirectionalIntegerFractionVariableInteger : option N :=
    step 2113 ((VisibilityGroup_parse "VIS" RP_RMK md_default)) (fun v1 => 
    chk 2114 (Ok (has_value v1)) (
    step 2116 (let! v2 := deref v1 in VisibilityGroup_append v2 "W" RP_RMK md_default) (fun p => let v3 := Some (fst p) in let v4 := snd p in 
    chk 2116 (Ok (AppendResult_beq v4 APPENDED)) (
    step 2118 (let! v5 := deref v3 in VisibilityGroup_append v5 "2" RP_RMK md_default) (fun p => let v6 := Some (fst p) in let v7 := snd p in 
    chk 2118 (Ok (AppendResult_beq v7 APPENDED)) (
    step 2120 (let! v8 := deref v6 in VisibilityGroup_append v8 "1/4V3" RP_RMK md_default) (fun p => let v9 := Some (fst p) in let v10 := snd p in 
    chk 2120 (Ok (AppendResult_beq v10 APPENDED)) (
    step 2122 (let! v11 := deref v9 in VisibilityGroup_append v11 "" RP_RMK md_default) (fun p => let v12 := Some (fst p) in let v13 := snd p in 
    chk 2122 (Ok (AppendResult_beq v13 NOT_APPENDED)) (
    chk 2125 (let! v14 := deref v12 in Ok (negb (has_value (vi_rw v14)))) (
    chk 2127 (let! v15 := deref v12 in Ok (ViType_beq (vi_type v15) Vi_VARIABLE_DIRECTIONAL)) (
    chk 2128 (let! v16 := deref v12 in Ok (negb (Distance_isReported (VisibilityGroup_visibility v16)))) (
    chk 2129 (let! v17 := deref v12 in Ok (has_value (vi_dir v17))) (
    chk 2130 (let! v18 := deref v12 in let! v19 := deref (vi_dir v18) in Ok (DirType_beq (dirType v19) DT_VALUE_CARDINAL)) (
    chk 2131 (let! v20 := deref v12 in let! v21 := deref (vi_dir v20) in Ok (Cardinal_beq (Direction_cardinal v21 false) Cd_W)) (
    chk 2133 (let! v22 := deref v12 in Ok (DistModifier_beq (distModifier (VisibilityGroup_minVisibility v22)) DM_NONE)) (
    chk 2134 (let! v23 := deref v12 in Ok (Distance_isReported (VisibilityGroup_minVisibility v23))) (
    chk 2135 (let! v24 := deref v12 in Ok (has_value (Distance_distance (VisibilityGroup_minVisibility v24)))) (
    chk 2136 (let! v25 := deref v12 in let! v26 := deref (Distance_distance (VisibilityGroup_minVisibility v25)) in Ok (near v26 (dlit (9) 4) (dlit (1) 200))) (
    chk 2137 (let! v27 := deref v12 in Ok (DistUnit_beq (distUnit (VisibilityGroup_minVisibility v27)) STATUTE_MILES)) (
    chk 2139 (let! v28 := deref v12 in Ok (DistModifier_beq (distModifier (VisibilityGroup_maxVisibility v28)) DM_NONE)) (
    chk 2140 (let! v29 := deref v12 in Ok (Distance_isReported (VisibilityGroup_maxVisibility v29))) (
    chk 2141 (let! v30 := deref v12 in Ok (has_value (Distance_distance (VisibilityGroup_maxVisibility v30)))) (
    chk 2142 (let! v31 := deref v12 in let! v32 := deref (Distance_distance (VisibilityGroup_maxVisibility v31)) in Ok (near v32 (dlit (3) 1) (dlit (1) 200))) (
    chk 2143 (let! v33 := deref v12 in Ok (DistUnit_beq (distUnit (VisibilityGroup_maxVisibility v33)) STATUTE_MILES)) (
    chk 2145 (let! v34 := deref v12 in let! v35 := (VisibilityGroup_sectorDirections v34) in Ok (N.eqb (N.of_nat (List.length v35)) 0%N)) (
    chk 2146 (let! v36 := deref v12 in Ok (ViTrend_beq (vi_trend v36) Vt_NONE)) (
    chk 2147 (let! v37 := deref v12 in Ok (VisibilityGroup_isValid v37)) (
    None))))))))))))))))))))))))))))).

Definition t_VisibilityGroup_parseRmkVisDirectionalFractionVariableIntegerFraction : option N :=
    step 2151 ((VisibilityGroup_parse "VIS" RP_RMK md_default)) (fun v1 => 
    chk 2152 (Ok (has_value v1)) (
    step 2154 (let! v2 := deref v1 in VisibilityGroup_append v2 "W" RP_RMK md_default) (fun p => let v3 := Some (fst p) in let v4 := snd p in 
    chk 2154 (Ok (AppendResult_beq v4 APPENDED)) (
    step 2156 (let! v5 := deref v3 in VisibilityGroup_append v5 "1/2V2" RP_RMK md_default) (fun p => let v6 := Some (fst p) in let v7 := snd p in 
    chk 2156 (Ok (AppendResult_beq v7 APPENDED)) (
    step 2158 (let! v8 := deref v6 in VisibilityGroup_append v8 "3/4" RP_RMK md_default) (fun p => let v9 := Some (fst p) in let v10 := snd p in 
    chk 2158 (Ok (AppendResult_beq v10 APPENDED)) (
    step 2160 (let! v11 := deref v9 in VisibilityGroup_append v11 "" RP_RMK md_default) (fun p => let v12 := Some (fst p) in let v13 := snd p in 
    chk 2160 (Ok (AppendResult_beq v13 NOT_APPENDED)) (
    chk 2163 (let! v14 := deref v12 in Ok (ViType_beq (vi_type v14) Vi_VARIABLE_DIRECTIONAL)) (
    chk 2164 (let! v15 := deref v12 in Ok (negb (Distance_isReported (VisibilityGroup_visibility v15)))) (
    chk 2165 (let! v16 := deref v12 in Ok (has_value (vi_dir v16))) (
    chk 2166 (let! v17 := deref v12 in let! v18 := deref (vi_dir v17) in Ok (DirType_beq (dirType v18) DT_VALUE_CARDINAL)) (
    chk 2167 (let! v19 := deref v12 in let! v20 := deref (vi_dir v19) in Ok (Cardinal_beq (Direction_cardinal v20 false) Cd_W)) (
    chk 2169 (let! v21 := deref v12 in Ok (negb (has_value (vi_rw v21)))) (
    chk 2171 (let! v22 := deref v12 in Ok (DistModifier_beq (distModifier (VisibilityGroup_minVisibility v22)) DM_NONE)) (
    chk 2172 (let! v23 := deref v12 in Ok (Distance_isReported (VisibilityGroup_minVisibility v23))) (
    chk 2173 (let! v24 := deref v12 in Ok (has_value (Distance_distance (VisibilityGroup_minVisibility v24)))) (
    chk 2174 (let! v25 := deref v12 in let! v26 := deref (Distance_distance (VisibilityGroup_minVisibility v25)) in Ok (near v26 (dlit (1) 2) (dlit (1) 200))) (
    chk 2175 (let! v27 := deref v12 in Ok (DistUnit_beq (distUnit (VisibilityGroup_minVisibility v27)) STATUTE_MILES)) (
    chk 2177 (let! v28 := deref v12 in Ok (DistModifier_beq (distModifier (VisibilityGroup_maxVisibility v28)) DM_NONE)) (
    chk 2178 (let! v29 := deref v12 in Ok (Distance_isReported (VisibilityGroup_maxVisibility v29))) (
    chk 2179 (let! v30 := deref v12 in Ok (has_value (Distance_distance (VisibilityGroup_maxVisibility v30)))) (
    chk 2180 (let! v31 := deref v12 in let! v32 := deref (Distance_distance (VisibilityGroup_maxVisibility v31)) in Ok (near v32 (dlit (11) 4) (dlit (1) 200))) (
    chk 2181 (let! v33 := deref v12 in Ok (DistUnit_beq (distUnit (VisibilityGroup_maxVisibility v33)) STATUTE_MILES)) (
    chk 2183 (let! v34 := deref v12 in let! v35 := (VisibilityGroup_sectorDirections v34) in Ok (N.eqb (N.of_nat (List.length v35)) 0%N)) (
    chk 2184 (let! v36 := deref v12 in Ok (ViTrend_beq (vi_trend v36) Vt_NONE)) (
    chk 2185 (let! v37 := deref v12 in Ok (VisibilityGroup_isValid v37)) (
    None))))))))))))))))))))))))))))).

Definition t_VisibilityGroup_parseRmkVisDirectionalIntegerFractionVariableIntegerFraction : option N :=
    step 2189 ((VisibilityGroup_parse "VIS" RP_RMK md_default)) (fun v1 => 
    chk 2190 (Ok (has_value v1)) (
    step 2192 (let! v2 := deref v1 in VisibilityGroup_append v2 "W" RP_RMK md_default) (fun p => let v3 := Some (fst p) in let v4 := snd p in 
    chk 2192 (Ok (AppendResult_beq v4 APPENDED)) (
    step 2194 (let! v5 := deref v3 in VisibilityGroup_append v5 "1" RP_RMK md_default) (fun p => let v6 := Some (fst p) in let v7 := snd p in 
    chk 2194 (Ok (AppendResult_beq v7 APPENDED)) (
    step 2196 (let! v8 := deref v6 in VisibilityGroup_append v8 "3/4V2" RP_RMK md_default) (fun p => let v9 := Some (fst p) in let v10 := snd p in 
    chk 2196 (Ok (AppendResult_beq v10 APPENDED)) (
    step 2198 (let! v11 := deref v9 in VisibilityGroup_append v11 "1/2" RP_RMK md_default) (fun p => let v12 := Some (fst p) in let v13 := snd p in 
    chk 2198 (Ok (AppendResult_beq v13 APPENDED)) (
    step 2200 (let! v14 := deref v12 in VisibilityGroup_append v14 "" RP_RMK md_default) (fun p => let v15 := Some (fst p) in let v16 := snd p in 
    chk 2200 (Ok (AppendResult_beq v16 NOT_APPENDED)) (
    chk 2203 (let! v17 := deref v15 in Ok (ViType_beq (vi_type v17) Vi_VARIABLE_DIRECTIONAL)) (
    chk 2204 (let! v18 := deref v15 in Ok (negb (Distance_isReported (VisibilityGroup_visibility v18)))) (
    chk 2205 (let! v19 := deref v15 in Ok (has_value (vi_dir v19))) (
    chk 2206 (let! v20 := deref v15 in let! v21 := deref (vi_dir v20) in Ok (DirType_beq (dirType v21) DT_VALUE_CARDINAL)) (
    chk 2207 (let! v22 := deref v15 in let! v23 := deref (vi_dir v22) in Ok (Cardinal_beq (Direction_cardinal v23 false) Cd_W)) (
    chk 2209 (let! v24 := deref v15 in Ok (negb (has_value (vi_rw v24)))) (
    chk 2211 (let! v25 := deref v15 in Ok (DistModifier_beq (distModifier (VisibilityGroup_minVisibility v25)) DM_NONE)) (
    chk 2212 (let! v26 := deref v15 in Ok (Distance_isReported (VisibilityGroup_minVisibility v26))) (
    chk 2213 (let! v27 := deref v15 in Ok (has_value (Distance_distance (VisibilityGroup_minVisibility v27)))) (
    chk 2214 (let! v28 := deref v15 in let! v29 := deref (Distance_distance (VisibilityGroup_minVisibility v28)) in Ok (near v29 (dlit (7) 4) (dlit (1) 200))) (
    chk 2215 (let! v30 := deref v15 in Ok (DistUnit_beq (distUnit (VisibilityGroup_minVisibility v30)) STATUTE_MILES)) (
    chk 2217 (let! v31 := deref v15 in Ok (DistModifier_beq (distModifier (VisibilityGroup_maxVisibility v31)) DM_NONE)) (
    chk 2218 (let! v32 := deref v15 in Ok (Distance_isReported (VisibilityGroup_maxVisibility v32))) (
    chk 2219 (let! v33 := deref v15 in Ok (has_value (Distance_distance (VisibilityGroup_maxVisibility v33)))) (
    chk 2220 (let! v34 := deref v15 in let! v35 := deref (Distance_distance (VisibilityGroup_maxVisibility v34)) in Ok (near v35 (dlit (5) 2) (dlit (1) 200))) (
    chk 2221 (let! v36 := deref v15 in Ok (DistUnit_beq (distUnit (VisibilityGroup_maxVisibility v36)) STATUTE_MILES)) (
    chk 2223 (let! v37 := deref v15 in let! v38 := (VisibilityGroup_sectorDirections v37) in Ok (N.eqb (N.of_nat (List.length v38)) 0%N)) (
    chk 2224 (let! v39 := deref v15 in Ok (ViTrend_beq (vi_trend v39) Vt_NONE)) (
    chk 2225 (let! v40 := deref v15 in Ok (VisibilityGroup_isValid v40)) (
    None))))))))))))))))))))))))))))))).

Definition t_VisibilityGroup_parseRmkVisDirectionalVariableMeters : option N :=
    step 2229 ((VisibilityGroup_parse "VIS" RP_RMK md_default)) (fun v1 => 
    chk 2230 (Ok (has_value v1)) (
    step 2232 (let! v2 := deref v1 in VisibilityGroup_append v2 "W" RP_RMK md_default) (fun p => let v3 := Some (fst p) in let v4 := snd p in 
    chk 2232 (Ok (AppendResult_beq v4 APPENDED)) (
    step 2234 (let! v5 := deref v3 in VisibilityGroup_append v5 "1200V9999" RP_RMK md_default) (fun p => let v6 := Some (fst p) in let v7 := snd p in 
    chk 2234 (Ok (AppendResult_beq v7 APPENDED)) (
    step 2236 (let! v8 := deref v6 in VisibilityGroup_append v8 "" RP_RMK md_default) (fun p => let v9 := Some (fst p) in let v10 := snd p in 
    chk 2236 (Ok (AppendResult_beq v10 NOT_APPENDED)) (
    chk 2239 (let! v11 := deref v9 in Ok (ViType_beq (vi_type v11) Vi_VARIABLE_DIRECTIONAL)) (
    chk 2240 (let! v12 := deref v9 in Ok (negb (Distance_isReported (VisibilityGroup_visibility v12)))) (
    chk 2241 (let! v13 := deref v9 in Ok (has_value (vi_dir v13))) (
    chk 2242 (let! v14 := deref v9 in let! v15 := deref (vi_dir v14) in Ok (DirType_beq (dirType v15) DT_VALUE_CARDINAL)) (
    chk 2243 (let! v16 := deref v9 in let! v17 := deref (vi_dir v16) in Ok (Cardinal_beq (Direction_cardinal v17 false) Cd_W)) (
    chk 2245 (let! v18 := deref v9 in Ok (negb (has_value (vi_rw v18)))) (
    chk 2247 (let! v19 := deref v9 in Ok (Distance_isReported (VisibilityGroup_minVisibility v19))) (
    chk 2248 (let! v20 := deref v9 in Ok (has_value (Distance_distance (VisibilityGroup_minVisibility v20)))) (
    chk 2249 (let! v21 := deref v9 in let! v22 := deref (Distance_distance (VisibilityGroup_minVisibility v21)) in Ok (near v22 (dlit (1200) 1) (dlit (1) 200))) (
    chk 2250 (let! v23 := deref v9 in Ok (DistModifier_beq (distModifier (VisibilityGroup_minVisibility v23)) DM_NONE)) (
    chk 2251 (let! v24 := deref v9 in Ok (DistUnit_beq (distUnit (VisibilityGroup_minVisibility v24)) METERS)) (
    chk 2253 (let! v25 := deref v9 in Ok (Distance_isReported (VisibilityGroup_maxVisibility v25))) (
    chk 2254 (let! v26 := deref v9 in Ok (has_value (Distance_distance (VisibilityGroup_maxVisibility v26)))) (
    chk 2255 (let! v27 := deref v9 in let! v28 := deref (Distance_distance (VisibilityGroup_maxVisibility v27)) in Ok (near v28 (dlit (10000) 1) (dlit (1) 200))) (
    chk 2256 (let! v29 := deref v9 in Ok (DistModifier_beq (distModifier (VisibilityGroup_maxVisibility v29)) DM_MORE_THAN)) (
    chk 2257 (let! v30 := deref v9 in Ok (DistUnit_beq (distUnit (VisibilityGroup_maxVisibility v30)) METERS)) (
    chk 2259 (let! v31 := deref v9 in let! v32 := (VisibilityGroup_sectorDirections v31) in Ok (N.eqb (N.of_nat (List.length v32)) 0%N)) (
    chk 2260 (let! v33 := deref v9 in Ok (ViTrend_beq (vi_trend v33) Vt_NONE)) (
    chk 2261 (let! v34 := deref v9 in Ok (VisibilityGroup_isValid v34)) (
    None))))))))))))))))))))))))))).

Definition t_VisibilityGroup_parseRmkVisDirectionalModifierFractionVariableInteger : option N :=
    step 2265 ((VisibilityGroup_parse "VIS" RP_RMK md_default)) (fun v1 => 
    chk 2266 (Ok (has_value v1)) (
    step 2268 (let! v2 := deref v1 in VisibilityGroup_append v2 "NW" RP_RMK md_default) (fun p => let v3 := Some (fst p) in let v4 := snd p in 
    chk 2268 (Ok (AppendResult_beq v4 APPENDED)) (
    step 2270 (let! v5 := deref v3 in VisibilityGroup_append v5 "M1/4V5" RP_RMK md_default) (fun p => let v6 := Some (fst p) in let v7 := snd p in 
    chk 2270 (Ok (AppendResult_beq v7 APPENDED)) (
    step 2272 (let! v8 := deref v6 in VisibilityGroup_append v8 "" RP_RMK md_default) (fun p => let v9 := Some (fst p) in let v10 := snd p in 
    chk 2272 (Ok (AppendResult_beq v10 NOT_APPENDED)) (
    chk 2275 (let! v11 := deref v9 in Ok (ViType_beq (vi_type v11) Vi_VARIABLE_DIRECTIONAL)) (
    chk 2276 (let! v12 := deref v9 in Ok (negb (Distance_isReported (VisibilityGroup_visibility v12)))) (
    chk 2277 (let! v13 := deref v9 in Ok (has_value (vi_dir v13))) (
    chk 2278 (let! v14 := deref v9 in let! v15 := deref (vi_dir v14) in Ok (DirType_beq (dirType v15) DT_VALUE_CARDINAL)) (
    chk 2279 (let! v16 := deref v9 in let! v17 := deref (vi_dir v16) in Ok (Cardinal_beq (Direction_cardinal v17 false) Cd_NW)) (
    chk 2281 (let! v18 := deref v9 in Ok (DistModifier_beq (distModifier (VisibilityGroup_minVisibility v18)) DM_LESS_THAN)) (
    chk 2282 (let! v19 := deref v9 in Ok (Distance_isReported (VisibilityGroup_minVisibility v19))) (
    chk 2283 (let! v20 := deref v9 in Ok (has_value (Distance_distance (VisibilityGroup_minVisibility v20)))) (
    chk 2284 (let! v21 := deref v9 in let! v22 := deref (Distance_distance (VisibilityGroup_minVisibility v21)) in Ok (near v22 (dlit (1) 4) (dlit (1) 200))) (
    chk 2285 (let! v23 := deref v9 in Ok (DistUnit_beq (distUnit (VisibilityGroup_minVisibility v23)) STATUTE_MILES)) (
    chk 2287 (let! v24 := deref v9 in Ok (DistUnit_beq (distUnit (VisibilityGroup_maxVisibility v24)) STATUTE_MILES)) (
    chk 2288 (let! v25 := deref v9 in Ok (Distance_isReported (VisibilityGroup_maxVisibility v25))) (
    chk 2289 (let! v26 := deref v9 in Ok (has_value (Distance_distance (VisibilityGroup_maxVisibility v26)))) (
    chk 2290 (let! v27 := deref v9 in let! v28 := deref (Distance_distance (VisibilityGroup_maxVisibility v27)) in Ok (near v28 (dlit (5) 1) (dlit (1) 200))) (
    chk 2291 (let! v29 := deref v9 in Ok (DistModifier_beq (distModifier (VisibilityGroup_maxVisibility v29)) DM_NONE)) (
    chk 2293 (let! v30 := deref v9 in let! v31 := (VisibilityGroup_sectorDirections v30) in Ok (N.eqb (N.of_nat (List.length v31)) 0%N)) (
    chk 2294 (let! v32 := deref v9 in Ok (ViTrend_beq (vi_trend v32) Vt_NONE)) (
    chk 2295 (let! v33 := deref v9 in Ok (VisibilityGroup_isValid v33)) (
    None)))))))))))))))))))))))))).

Definition t_VisibilityGroup_parseRmkVisDirectionalFractionVariableModifierInteger : option N :=
    step 2299 ((VisibilityGroup_parse "VIS" RP_RMK md_default)) (fun v1 => 
    chk 2300 (Ok (has_value v1)) (
    step 2302 (let! v2 := deref v1 in VisibilityGroup_append v2 "NW" RP_RMK md_default) (fun p => let v3 := Some (fst p) in let v4 := snd p in 
    chk 2302 (Ok (AppendResult_beq v4 APPENDED)) (
    step 2304 (let! v5 := deref v3 in VisibilityGroup_append v5 "1/4VP6" RP_RMK md_default) (fun p => let v6 := Some (fst p) in let v7 := snd p in 
    chk 2304 (Ok (AppendResult_beq v7 APPENDED)) (
    step 2306 (let! v8 := deref v6 in VisibilityGroup_append v8 "" RP_RMK md_default) (fun p => let v9 := Some (fst p) in let v10 := snd p in 
    chk 2306 (Ok (AppendResult_beq v10 NOT_APPENDED)) (
    chk 2309 (let! v11 := deref v9 in Ok (ViType_beq (vi_type v11) Vi_VARIABLE_DIRECTIONAL)) (
    chk 2310 (let! v12 := deref v9 in Ok (negb (Distance_isReported (VisibilityGroup_visibility v12)))) (
    chk 2311 (let! v13 := deref v9 in Ok (has_value (vi_dir v13))) (
    chk 2312 (let! v14 := deref v9 in let! v15 := deref (vi_dir v14) in Ok (DirType_beq (dirType v15) DT_VALUE_CARDINAL)) (
    chk 2313 (let! v16 := deref v9 in let! v17 := deref (vi_dir v16) in Ok (Cardinal_beq (Direction_cardinal v17 false) Cd_NW)) (
    chk 2315 (let! v18 := deref v9 in Ok (DistModifier_beq (distModifier (VisibilityGroup_minVisibility v18)) DM_NONE)) (
    chk 2316 (let! v19 := deref v9 in Ok (Distance_isReported (VisibilityGroup_minVisibility v19))) (
    chk 2317 (let! v20 := deref v9 in Ok (has_value (Distance_distance (VisibilityGroup_minVisibility v20)))) (
    chk 2318 (let! v21 := deref v9 in let! v22 := deref (Distance_distance (VisibilityGroup_minVisibility v21)) in Ok (near v22 (dlit (1) 4) (dlit (1) 200))) (
    chk 2319 (let! v23 := deref v9 in Ok (DistUnit_beq (distUnit (VisibilityGroup_minVisibility v23)) STATUTE_MILES)) (
    chk 2321 (let! v24 := deref v9 in Ok (DistUnit_beq (distUnit (VisibilityGroup_maxVisibility v24)) STATUTE_MILES)) (
    chk 2322 (let! v25 := deref v9 in Ok (Distance_isReported (VisibilityGroup_maxVisibility v25))) (
    chk 2323 (let! v26 := deref v9 in Ok (has_value (Distance_distance (VisibilityGroup_maxVisibility v26)))) (
    chk 2324 (let! v27 := deref v9 in let! v28 := deref (Distance_distance (VisibilityGroup_maxVisibility v27)) in Ok (near v28 (dlit (6) 1) (dlit (1) 200))) (
    chk 2325 (let! v29 := deref v9 in Ok (DistModifier_beq (distModifier (VisibilityGroup_maxVisibility v29)) DM_MORE_THAN)) (
    chk 2327 (let! v30 := deref v9 in let! v31 := (VisibilityGroup_sectorDirections v30) in Ok (N.eqb (N.of_nat (List.length v31)) 0%N)) (
    chk 2328 (let! v32 := deref v9 in Ok (ViTrend_beq (vi_trend v32) Vt_NONE)) (
    chk 2329 (let! v33 := deref v9 in Ok (VisibilityGroup_isValid v33)) (
    None)))))))))))))))))))))))))).

Definition t_VisibilityGroup_parseRmkVisDirectionalModifierFractionVariableModifierInteger : option N :=
    step 2333 ((VisibilityGroup_parse "VIS" RP_RMK md_default)) (fun v1 => 
    chk 2334 (Ok (has_value v1)) (
    step 2336 (let! v2 := deref v1 in VisibilityGroup_append v2 "NW" RP_RMK md_default) (fun p => let v3 := Some (fst p) in let v4 := snd p in 
    chk 2336 (Ok (AppendResult_beq v4 APPENDED)) (
    step 2338 (let! v5 := deref v3 in VisibilityGroup_append v5 "M1/4VP6" RP_RMK md_default) (fun p => let v6 := Some (fst p) in let v7 := snd p in 
    chk 2338 (Ok (AppendResult_beq v7 APPENDED)) (
    step 2340 (let! v8 := deref v6 in VisibilityGroup_append v8 "" RP_RMK md_default) (fun p => let v9 := Some (fst p) in let v10 := snd p in 
    chk 2340 (Ok (AppendResult_beq v10 NOT_APPENDED)) (
    chk 2343 (let! v11 := deref v9 in Ok (ViType_beq (vi_type v11) Vi_VARIABLE_DIRECTIONAL)) (
    chk 2344 (let! v12 := deref v9 in Ok (negb (Distance_isReported (VisibilityGroup_visibility v12)))) (
    chk 2345 (let! v13 := deref v9 in Ok (has_value (vi_dir v13))) (
    chk 2346 (let! v14 := deref v9 in let! v15 := deref (vi_dir v14) in Ok (DirType_beq (dirType v15) DT_VALUE_CARDINAL)) (
    chk 2347 (let! v16 := deref v9 in let! v17 := deref (vi_dir v16) in Ok (Cardinal_beq (Direction_cardinal v17 false) Cd_NW)) (
    chk 2349 (let! v18 := deref v9 in Ok (DistModifier_beq (distModifier (VisibilityGroup_minVisibility v18)) DM_LESS_THAN)) (
    chk 2350 (let! v19 := deref v9 in Ok (Distance_isReported (VisibilityGroup_minVisibility v19))) (
    chk 2351 (let! v20 := deref v9 in Ok (has_value (Distance_distance (VisibilityGroup_minVisibility v20)))) (
    chk 2352 (let! v21 := deref v9 in let! v22 := deref (Distance_distance (VisibilityGroup_minVisibility v21)) in Ok (near v22 (dlit (1) 4) (dlit (1) 200))) (
    chk 2353 (let! v23 := deref v9 in Ok (DistUnit_beq (distUnit (VisibilityGroup_minVisibility v23)) STATUTE_MILES)) (
    chk 2355 (let! v24 := deref v9 in Ok (DistUnit_beq (distUnit (VisibilityGroup_maxVisibility v24)) STATUTE_MILES)) (
    chk 2356 (let! v25 := deref v9 in Ok (Distance_isReported (VisibilityGroup_maxVisibility v25))) (
    chk 2357 (let! v26 := deref v9 in Ok (has_value (Distance_distance (VisibilityGroup_maxVisibility v26)))) (
    chk 2358 (let! v27 := deref v9 in let! v28 := deref (Distance_distance (VisibilityGroup_maxVisibility v27)) in Ok (near v28 (dlit (6) 1) (dlit (1) 200))) (
    chk 2359 (let! v29 := deref v9 in Ok (DistModifier_beq (distModifier (VisibilityGroup_maxVisibility v29)) DM_MORE_THAN)) (
    chk 2361 (let! v30 := deref v9 in let! v31 := (VisibilityGroup_sectorDirections v30) in Ok (N.eqb (N.of_nat (List.length v31)) 0%N)) (
    chk 2362 (let! v32 := deref v9 in Ok (ViTrend_beq (vi_trend v32) Vt_NONE)) (
    chk 2363 (let! v33 := deref v9 in Ok (VisibilityGroup_isValid v33)) (
    None)))))))))))))))))))))))))).

Definition t_VisibilityGroup_parseRmkVisDirectionalModifierFractionVariableIntegerFraction : option N :=
    step 2367 ((VisibilityGroup_parse "VIS" RP_RMK md_default)) (fun v1 => 
    chk 2368 (Ok (has_value v1)) (
    step 2370 (let! v2 := deref v1 in VisibilityGroup_append v2 "NW" RP_RMK md_default) (fun p => let v3 := Some (fst p) in let v4 := snd p in 
    chk 2370 (Ok (AppendResult_beq v4 APPENDED)) (
    step 2372 (let! v5 := deref v3 in VisibilityGroup_append v5 "M1/4V1" RP_RMK md_default) (fun p => let v6 := Some (fst p) in let v7 := snd p in 
    chk 2372 (Ok (AppendResult_beq v7 APPENDED)) (
    step 2374 (let! v8 := deref v6 in VisibilityGroup_append v8 "3/4" RP_RMK md_default) (fun p => let v9 := Some (fst p) in let v10 := snd p in 
    chk 2374 (Ok (AppendResult_beq v10 APPENDED)) (
    step 2376 (let! v11 := deref v9 in VisibilityGroup_append v11 "" RP_RMK md_default) (fun p => let v12 := Some (fst p) in let v13 := snd p in 
    chk 2376 (Ok (AppendResult_beq v13 NOT_APPENDED)) (
    chk 2379 (let! v14 := deref v12 in Ok (ViType_beq (vi_type v14) Vi_VARIABLE_DIRECTIONAL)) (
    chk 2380 (let! v15 := deref v12 in Ok (negb (Distance_isReported (VisibilityGroup_visibility v15)))) (
    chk 2381 (let! v16 := deref v12 in Ok (has_value (vi_dir v16))) (
    chk 2382 (let! v17 := deref v12 in let! v18 := deref (vi_dir v17) in Ok (DirType_beq (dirType v18) DT_VALUE_CARDINAL)) (
    chk 2383 (let! v19 := deref v12 in let! v20 := deref (vi_dir v19) in Ok (Cardinal_beq (Direction_cardinal v20 false) Cd_NW)) (
    chk 2385 (let! v21 := deref v12 in Ok (DistUnit_beq (distUnit (VisibilityGroup_minVisibility v21)) STATUTE_MILES)) (
    chk 2386 (let! v22 := deref v12 in Ok (Distance_isReported (VisibilityGroup_minVisibility v22))) (
    chk 2387 (let! v23 := deref v12 in Ok (has_value (Distance_distance (VisibilityGroup_minVisibility v23)))) (
    chk 2388 (let! v24 := deref v12 in let! v25 := deref (Distance_distance (VisibilityGroup_minVisibility v24)) in Ok (near v25 (dlit (1) 4) (dlit (1) 200))) (
    chk 2389 (let! v26 := deref v12 in Ok (DistModifier_beq (distModifier (VisibilityGroup_minVisibility v26)) DM_LESS_THAN)) (
    chk 2391 (let! v27 := deref v12 in Ok (DistUnit_beq (distUnit (VisibilityGroup_maxVisibility v27)) STATUTE_MILES)) (
    chk 2392 (let! v28 := deref v12 in Ok (Distance_isReported (VisibilityGroup_maxVisibility v28))) (
    chk 2393 (let! v29 := deref v12 in Ok (has_value (Distance_distance (VisibilityGroup_maxVisibility v29)))) (
    chk 2394 (let! v30 := deref v12 in let! v31 := deref (Distance_distance (VisibilityGroup_maxVisibility v30)) in Ok (near v31 (dlit (7) 4) (dlit (1) 200))) (
    chk 2395 (let! v32 := deref v12 in Ok (DistModifier_beq (distModifier (VisibilityGroup_maxVisibility v32)) DM_NONE)) (
    chk 2397 (let! v33 := deref v12 in let! v34 := (VisibilityGroup_sectorDirections v33) in Ok (N.eqb (N.of_nat (List.length v34)) 0%N)) (
    chk 2398 (let! v35 := deref v12 in Ok (ViTrend_beq (vi_trend v35) Vt_NONE)) (
    chk 2399 (let! v36 := deref v12 in Ok (VisibilityGroup_isValid v36)) (
    None)))))))))))))))))))))))))))).

Definition t_VisibilityGroup_parseRmkVisDirectionalModifierIntegerFractionVariableModifierIntegerFraction : option N :=
    step 2403 ((VisibilityGroup_parse "VIS" RP_RMK md_default)) (fun v1 => 
    chk 2404 (Ok (has_value v1)) (
    step 2406 (let! v2 := deref v1 in VisibilityGroup_append v2 "NW" RP_RMK md_default) (fun p => let v3 := Some (fst p) in let v4 := snd p in 
    chk 2406 (Ok (AppendResult_beq v4 APPENDED)) (
    step 2408 (let! v5 := deref v3 in VisibilityGroup_append v5 "M1" RP_RMK md_default) (fun p => let v6 := Some (fst p) in let v7 := snd p in 
    chk 2408 (Ok (AppendResult_beq v7 APPENDED)) (
    step 2410 (let! v8 := deref v6 in VisibilityGroup_append v8 "1/4VP1" RP_RMK md_default) (fun p => let v9 := Some (fst p) in let v10 := snd p in 
    chk 2410 (Ok (AppendResult_beq v10 APPENDED)) (
    step 2412 (let! v11 := deref v9 in VisibilityGroup_append v11 "3/4" RP_RMK md_default) (fun p => let v12 := Some (fst p) in let v13 := snd p in 
    chk 2412 (Ok (AppendResult_beq v13 APPENDED)) (
    step 2414 (let! v14 := deref v12 in VisibilityGroup_append v14 "" RP_RMK md_default) (fun p => let v15 := Some (fst p) in let v16 := snd p in 
    chk 2414 (Ok (AppendResult_beq v16 NOT_APPENDED)) (
    chk 2417 (let! v17 := deref v15 in Ok (ViType_beq (vi_type v17) Vi_VARIABLE_DIRECTIONAL)) (
    chk 2418 (let! v18 := deref v15 in Ok (negb (Distance_isReported (VisibilityGroup_visibility v18)))) (
    chk 2419 (let! v19 := deref v15 in Ok (has_value (vi_dir v19))) (
    chk 2420 (let! v20 := deref v15 in let! v21 := deref (vi_dir v20) in Ok (DirType_beq (dirType v21) DT_VALUE_CARDINAL)) (
    chk 2421 (let! v22 := deref v15 in let! v23 := deref (vi_dir v22) in Ok (Cardinal_beq (Direction_cardinal v23 false) Cd_NW)) (
    chk 2423 (let! v24 := deref v15 in Ok (DistUnit_beq (distUnit (VisibilityGroup_minVisibility v24)) STATUTE_MILES)) (
    chk 2424 (let! v25 := deref v15 in Ok (Distance_isReported (VisibilityGroup_minVisibility v25))) (
    chk 2425 (let! v26 := deref v15 in Ok (has_value (Distance_distance (VisibilityGroup_minVisibility v26)))) (
    chk 2426 (let! v27 := deref v15 in let! v28 := deref (Distance_distance (VisibilityGroup_minVisibility v27)) in Ok (near v28 (dlit (5) 4) (dlit (1) 200))) (
    chk 2427 (let! v29 := deref v15 in Ok (DistModifier_beq (distModifier (VisibilityGroup_minVisibility v29)) DM_LESS_THAN)) (
    chk 2429 (let! v30 := deref v15 in Ok (DistUnit_beq (distUnit (VisibilityGroup_maxVisibility v30)) STATUTE_MILES)) (
    chk 2430 (let! v31 := deref v15 in Ok (Distance_isReported (VisibilityGroup_maxVisibility v31))) (
    chk 2431 (let! v32 := deref v15 in Ok (has_value (Distance_distance (VisibilityGroup_maxVisibility v32)))) (
    chk 2432 (let! v33 := deref v15 in let! v34 := deref (Distance_distance (VisibilityGroup_maxVisibility v33)) in Ok (near v34 (dlit (7) 4) (dlit (1) 200))) (
    chk 2433 (let! v35 := deref v15 in Ok (DistModifier_beq (distModifier (VisibilityGroup_maxVisibility v35)) DM_MORE_THAN)) (
    chk 2435 (let! v36 := deref v15 in let! v37 := (VisibilityGroup_sectorDirections v36) in Ok (N.eqb (N.of_nat (List.length v37)) 0%N)) (
    chk 2436 (let! v38 := deref v15 in Ok (ViTrend_beq (vi_trend v38) Vt_NONE)) (
    chk 2437 (let! v39 := deref v15 in Ok (VisibilityGroup_isValid v39)) (
    None)))))))))))))))))))))))))))))).

Definition t_VisibilityGroup_parseRmkVisDirectionalNonVariableIntegerFraction : option N :=
    step 2448 ((VisibilityGroup_parse "VIS" RP_RMK md_default)) (fun v1 => 
    chk 2449 (Ok (has_value v1)) (
    step 2451 (let! v2 := deref v1 in VisibilityGroup_append v2 "W" RP_RMK md_default) (fun p => let v3 := Some (fst p) in let v4 := snd p in 
    chk 2451 (Ok (AppendResult_beq v4 APPENDED)) (
    step 2453 (let! v5 := deref v3 in VisibilityGroup_append v5 "1" RP_RMK md_default) (fun p => let v6 := Some (fst p) in let v7 := snd p in 
    chk 2453 (Ok (AppendResult_beq v7 APPENDED)) (
    step 2455 (let! v8 := deref v6 in VisibilityGroup_append v8 "3/4" RP_RMK md_default) (fun p => let v9 := Some (fst p) in let v10 := snd p in 
    chk 2455 (Ok (AppendResult_beq v10 APPENDED)) (
    step 2457 (let! v11 := deref v9 in VisibilityGroup_append v11 "" RP_RMK md_default) (fun p => let v12 := Some (fst p) in let v13 := snd p in 
    chk 2457 (Ok (AppendResult_beq v13 NOT_APPENDED)) (
    chk 2460 (let! v14 := deref v12 in Ok (ViType_beq (vi_type v14) Vi_DIRECTIONAL)) (
    chk 2461 (let! v15 := deref v12 in Ok (has_value (vi_dir v15))) (
    chk 2462 (let! v16 := deref v12 in let! v17 := deref (vi_dir v16) in Ok (DirType_beq (dirType v17) DT_VALUE_CARDINAL)) (
    chk 2463 (let! v18 := deref v12 in let! v19 := deref (vi_dir v18) in Ok (Cardinal_beq (Direction_cardinal v19 false) Cd_W)) (
    chk 2465 (let! v20 := deref v12 in Ok (negb (has_value (vi_rw v20)))) (
    chk 2467 (let! v21 := deref v12 in Ok (DistModifier_beq (distModifier (VisibilityGroup_visibility v21)) DM_NONE)) (
    chk 2468 (let! v22 := deref v12 in Ok (Distance_isReported (VisibilityGroup_visibility v22))) (
    chk 2469 (let! v23 := deref v12 in Ok (has_value (Distance_distance (VisibilityGroup_visibility v23)))) (
    chk 2470 (let! v24 := deref v12 in let! v25 := deref (Distance_distance (VisibilityGroup_visibility v24)) in Ok (near v25 (dlit (7) 4) (dlit (1) 200))) (
    chk 2471 (let! v26 := deref v12 in Ok (DistUnit_beq (distUnit (VisibilityGroup_visibility v26)) STATUTE_MILES)) (
    chk 2473 (let! v27 := deref v12 in Ok (negb (Distance_isReported (VisibilityGroup_minVisibility v27)))) (
    chk 2474 (let! v28 := deref v12 in Ok (negb (Distance_isReported (VisibilityGroup_maxVisibility v28)))) (
    chk 2475 (let! v29 := deref v12 in let! v30 := (VisibilityGroup_sectorDirections v29) in Ok (N.eqb (N.of_nat (List.length v30)) 0%N)) (
    chk 2476 (let! v31 := deref v12 in Ok (ViTrend_beq (vi_trend v31) Vt_NONE)) (
    chk 2477 (let! v32 := deref v12 in Ok (VisibilityGroup_isValid v32)) (
    None))))))))))))))))))))))))).

Definition t_VisibilityGroup_parseRmkVisDirectionalNonVariableInteger : option N :=
    step 2481 ((VisibilityGroup_parse "VIS" RP_RMK md_default)) (fun v1 => 
    chk 2482 (Ok (has_value v1)) (
    step 2484 (let! v2 := deref v1 in VisibilityGroup_append v2 "W" RP_RMK md_default) (fun p => let v3 := Some (fst p) in let v4 := snd p in 
    chk 2484 (Ok (AppendResult_beq v4 APPENDED)) (
    step 2486 (let! v5 := deref v3 in VisibilityGroup_append v5 "2" RP_RMK md_default) (fun p => let v6 := Some (fst p) in let v7 := snd p in 
    chk 2486 (Ok (AppendResult_beq v7 APPENDED)) (
    step 2488 (let! v8 := deref v6 in VisibilityGroup_append v8 "" RP_RMK md_default) (fun p => let v9 := Some (fst p) in let v10 := snd p in 
    chk 2488 (Ok (AppendResult_beq v10 NOT_APPENDED)) (
    chk 2491 (let! v11 := deref v9 in Ok (ViType_beq (vi_type v11) Vi_DIRECTIONAL)) (
    chk 2492 (let! v12 := deref v9 in Ok (has_value (vi_dir v12))) (
    chk 2493 (let! v13 := deref v9 in let! v14 := deref (vi_dir v13) in Ok (DirType_beq (dirType v14) DT_VALUE_CARDINAL)) (
    chk 2494 (let! v15 := deref v9 in let! v16 := deref (vi_dir v15) in Ok (Cardinal_beq (Direction_cardinal v16 false) Cd_W)) (
    chk 2496 (let! v17 := deref v9 in Ok (negb (has_value (vi_rw v17)))) (
    chk 2498 (let! v18 := deref v9 in Ok (DistModifier_beq (distModifier (VisibilityGroup_visibility v18)) DM_NONE)) (
    chk 2499 (let! v19 := deref v9 in Ok (Distance_isReported (VisibilityGroup_visibility v19))) (
    chk 2500 (let! v20 := deref v9 in Ok (has_value (Distance_distance (VisibilityGroup_visibility v20)))) (
    chk 2501 (let! v21 := deref v9 in let! v22 := deref (Distance_distance (VisibilityGroup_visibility v21)) in Ok (near v22 (dlit (2) 1) (dlit (1) 200))) (
    chk 2502 (let! v23 := deref v9 in Ok (DistUnit_beq (distUnit (VisibilityGroup_visibility v23)) STATUTE_MILES)) (
    chk 2504 (let! v24 := deref v9 in Ok (negb (Distance_isReported (VisibilityGroup_minVisibility v24)))) (
    chk 2505 (let! v25 := deref v9 in Ok (negb (Distance_isReported (VisibilityGroup_maxVisibility v25)))) (
    chk 2506 (let! v26 := deref v9 in let! v27 := (VisibilityGroup_sectorDirections v26) in Ok (N.eqb (N.of_nat (List.length v27)) 0%N)) (
    chk 2507 (let! v28 := deref v9 in Ok (ViTrend_beq (vi_trend v28) Vt_NONE)) (
    chk 2508 (let! v29 := deref v9 in Ok (VisibilityGroup_isValid v29)) (
    None))))))))))))))))))))))).

Definition t_VisibilityGroup_parseRmkVisDirectionalNonVariableFraction : option N :=
    step 2512 ((VisibilityGroup_parse "VIS" RP_RMK md_default)) (fun v1 => 
    chk 2513 (Ok (has_value v1)) (
    step 2515 (let! v2 := deref v1 in VisibilityGroup_append v2 "W" RP_RMK md_default) (fun p => let v3 := Some (fst p) in let v4 := snd p in 
    chk 2515 (Ok (AppendResult_beq v4 APPENDED)) (
    step 2517 (let! v5 := deref v3 in VisibilityGroup_append v5 "3/4" RP_RMK md_default) (fun p => let v6 := Some (fst p) in let v7 := snd p in 
    chk 2517 (Ok (AppendResult_beq v7 APPENDED)) (
    step 2519 (let! v8 := deref v6 in VisibilityGroup_append v8 "" RP_RMK md_default) (fun p => let v9 := Some (fst p) in let v10 := snd p in 
    chk 2519 (Ok (AppendResult_beq v10 NOT_APPENDED)) (
    chk 2522 (let! v11 := deref v9 in Ok (ViType_beq (vi_type v11) Vi_DIRECTIONAL)) (
    chk 2523 (let! v12 := deref v9 in Ok (has_value (vi_dir v12))) (
    chk 2524 (let! v13 := deref v9 in let! v14 := deref (vi_dir v13) in Ok (DirType_beq (dirType v14) DT_VALUE_CARDINAL)) (
    chk 2525 (let! v15 := deref v9 in let! v16 := deref (vi_dir v15) in Ok (Cardinal_beq (Direction_cardinal v16 false) Cd_W)) (
    chk 2527 (let! v17 := deref v9 in Ok (negb (has_value (vi_rw v17)))) (
    chk 2529 (let! v18 := deref v9 in Ok (DistModifier_beq (distModifier (VisibilityGroup_visibility v18)) DM_NONE)) (
    chk 2530 (let! v19 := deref v9 in Ok (Distance_isReported (VisibilityGroup_visibility v19))) (
    chk 2531 (let! v20 := deref v9 in Ok (has_value (Distance_distance (VisibilityGroup_visibility v20)))) (
    chk 2532 (let! v21 := deref v9 in let! v22 := deref (Distance_distance (VisibilityGroup_visibility v21)) in Ok (near v22 (dlit (3) 4) (dlit (1) 200))) (
    chk 2533 (let! v23 := deref v9 in Ok (DistUnit_beq (distUnit (VisibilityGroup_visibility v23)) STATUTE_MILES)) (
    chk 2535 (let! v24 := deref v9 in Ok (negb (Distance_isReported (VisibilityGroup_minVisibility v24)))) (
    chk 2536 (let! v25 := deref v9 in Ok (negb (Distance_isReported (VisibilityGroup_maxVisibility v25)))) (
    chk 2537 (let! v26 := deref v9 in let! v27 := (VisibilityGroup_sectorDirections v26) in Ok (N.eqb (N.of_nat (List.length v27)) 0%N)) (
    chk 2538 (let! v28 := deref v9 in Ok (ViTrend_beq (vi_trend v28) Vt_NONE)) (
    chk 2539 (let! v29 := deref v9 in Ok (VisibilityGroup_isValid v29)) (
    None))))))))))))))))))))))).

Definition t_VisibilityGroup_parseRmkAppendToCompleteNonVarVisGroups : option N :=
    step 2543 ((VisibilityGroup_parse "VIS" RP_RMK md_default)) (fun v1 => 
    chk 2544 (Ok (has_value v1)) (
    step 2545 (let! v2 := deref v1 in VisibilityGroup_append v2 "W" RP_RMK md_default) (fun p => let v3 := Some (fst p) in let v4 := snd p in 
    chk 2545 (Ok (AppendResult_beq v4 APPENDED)) (
    step 2546 (let! v5 := deref v3 in VisibilityGroup_append v5 "3" RP_RMK md_default) (fun p => let v6 := Some (fst p) in let v7 := snd p in 
    chk 2546 (Ok (AppendResult_beq v7 APPENDED)) (
    step 2547 (let! v8 := deref v6 in VisibilityGroup_append v8 "NW" RP_RMK md_default) (fun p => let v9 := Some (fst p) in let v10 := snd p in 
    chk 2547 (Ok (AppendResult_beq v10 NOT_APPENDED)) (
    step 2548 (let! v11 := deref v9 in VisibilityGroup_append v11 "1V3" RP_RMK md_default) (fun p => let v12 := Some (fst p) in let v13 := snd p in 
    chk 2548 (Ok (AppendResult_beq v13 NOT_APPENDED)) (
    step 2549 (let! v14 := deref v12 in VisibilityGroup_append v14 "1/2V3" RP_RMK md_default) (fun p => let v15 := Some (fst p) in let v16 := snd p in 
    chk 2549 (Ok (AppendResult_beq v16 NOT_APPENDED)) (
    step 2550 (let! v17 := deref v15 in VisibilityGroup_append v17 "2" RP_RMK md_default) (fun p => let v18 := Some (fst p) in let v19 := snd p in 
    chk 2550 (Ok (AppendResult_beq v19 NOT_APPENDED)) (
    step 2552 ((VisibilityGroup_parse "VIS" RP_RMK md_default)) (fun v20 => 
    chk 2553 (Ok (has_value v20)) (
    step 2554 (let! v21 := deref v20 in VisibilityGroup_append v21 "S" RP_RMK md_default) (fun p => let v22 := Some (fst p) in let v23 := snd p in 
    chk 2554 (Ok (AppendResult_beq v23 APPENDED)) (
    step 2555 (let! v24 := deref v22 in VisibilityGroup_append v24 "1/2" RP_RMK md_default) (fun p => let v25 := Some (fst p) in let v26 := snd p in 
    chk 2555 (Ok (AppendResult_beq v26 APPENDED)) (
    step 2556 (let! v27 := deref v25 in VisibilityGroup_append v27 "NW" RP_RMK md_default) (fun p => let v28 := Some (fst p) in let v29 := snd p in 
    chk 2556 (Ok (AppendResult_beq v29 NOT_APPENDED)) (
    step 2557 (let! v30 := deref v28 in VisibilityGroup_append v30 "1V3" RP_RMK md_default) (fun p => let v31 := Some (fst p) in let v32 := snd p in 
    chk 2557 (Ok (AppendResult_beq v32 NOT_APPENDED)) (
    step 2558 (let! v33 := deref v31 in VisibilityGroup_append v33 "1/2V3" RP_RMK md_default) (fun p => let v34 := Some (fst p) in let v35 := snd p in 
    chk 2558 (Ok (AppendResult_beq v35 NOT_APPENDED)) (
    step 2559 (let! v36 := deref v34 in VisibilityGroup_append v36 "2" RP_RMK md_default) (fun p => let v37 := Some (fst p) in let v38 := snd p in 
    chk 2559 (Ok (AppendResult_beq v38 NOT_APPENDED)) (
    None)))))))))))))))))))))))))))).

Definition t_VisibilityGroup_parseRmkVisDirectionalNonVariableModifierIntegerFraction : option N :=
    step 2563 ((VisibilityGroup_parse "VIS" RP_RMK md_default)) (fun v1 => 
    chk 2564 (Ok (has_value v1)) (
    step 2566 (let! v2 := deref v1 in VisibilityGroup_append v2 "W" RP_RMK md_default) (fun p => let v3 := Some (fst p) in let v4 := snd p in 
    chk 2566 (Ok (AppendResult_beq v4 APPENDED)) (
    step 2568 (let! v5 := deref v3 in VisibilityGroup_append v5 "M1" RP_RMK md_default) (fun p => let v6 := Some (fst p) in let v7 := snd p in 
    chk 2568 (Ok (AppendResult_beq v7 APPENDED)) (
    step 2570 (let! v8 := deref v6 in VisibilityGroup_append v8 "1/4" RP_RMK md_default) (fun p => let v9 := Some (fst p) in let v10 := snd p in 
    chk 2570 (Ok (AppendResult_beq v10 APPENDED)) (
    step 2572 (let! v11 := deref v9 in VisibilityGroup_append v11 "" RP_RMK md_default) (fun p => let v12 := Some (fst p) in let v13 := snd p in 
    chk 2572 (Ok (AppendResult_beq v13 NOT_APPENDED)) (
    chk 2575 (let! v14 := deref v12 in Ok (ViType_beq (vi_type v14) Vi_DIRECTIONAL)) (
    chk 2576 (let! v15 := deref v12 in Ok (has_value (vi_dir v15))) (
    chk 2577 (let! v16 := deref v12 in let! v17 := deref (vi_dir v16) in Ok (DirType_beq (dirType v17) DT_VALUE_CARDINAL)) (
    chk 2578 (let! v18 := deref v12 in let! v19 := deref (vi_dir v18) in Ok (Cardinal_beq (Direction_cardinal v19 false) Cd_W)) (
    chk 2580 (let! v20 := deref v12 in Ok (negb (has_value (vi_rw v20)))) (
    chk 2582 (let! v21 := deref v12 in Ok (DistModifier_beq (distModifier (VisibilityGroup_visibility v21)) DM_LESS_THAN)) (
    chk 2583 (let! v22 := deref v12 in Ok (Distance_isReported (VisibilityGroup_visibility v22))) (
    chk 2584 (let! v23 := deref v12 in Ok (has_value (Distance_distance (VisibilityGroup_visibility v23)))) (
    chk 2585 (let! v24 := deref v12 in let! v25 := deref (Distance_distance (VisibilityGroup_visibility v24)) in Ok (near v25 (dlit (5) 4) (dlit (1) 200))) (
    chk 2586 (let! v26 := deref v12 in Ok (DistUnit_beq (distUnit (VisibilityGroup_visibility v26)) STATUTE_MILES)) (
    chk 2588 (let! v27 := deref v12 in Ok (negb (Distance_isReported (VisibilityGroup_minVisibility v27)))) (
    chk 2589 (let! v28 := deref v12 in Ok (negb (Distance_isReported (VisibilityGroup_maxVisibility v28)))) (
    chk 2590 (let! v29 := deref v12 in let! v30 := (VisibilityGroup_sectorDirections v29) in Ok (N.eqb (N.of_nat (List.length v30)) 0%N)) (
    chk 2591 (let! v31 := deref v12 in Ok (ViTrend_beq (vi_trend v31) Vt_NONE)) (
    chk 2592 (let! v32 := deref v12 in Ok (VisibilityGroup_isValid v32)) (
    None))))))))))))))))))))))))).

Definition t_VisibilityGroup_parseRmkVisDirectionalNonVariableModifierInteger : option N :=
    step 2596 ((VisibilityGroup_parse "VIS" RP_RMK md_default)) (fun v1 => 
    chk 2597 (Ok (has_value v1)) (
    step 2599 (let! v2 := deref v1 in VisibilityGroup_append v2 "W" RP_RMK md_default) (fun p => let v3 := Some (fst p) in let v4 := snd p in 
    chk 2599 (Ok (AppendResult_beq v4 APPENDED)) (
    step 2601 (let! v5 := deref v3 in VisibilityGroup_append v5 "P6" RP_RMK md_default) (fun p => let v6 := Some (fst p) in let v7 := snd p in 
    chk 2601 (Ok (AppendResult_beq v7 APPENDED)) (
    step 2603 (let! v8 := deref v6 in VisibilityGroup_append v8 "" RP_RMK md_default) (fun p => let v9 := Some (fst p) in let v10 := snd p in 
    chk 2603 (Ok (AppendResult_beq v10 NOT_APPENDED)) (
    chk 2606 (let! v11 := deref v9 in Ok (ViType_beq (vi_type v11) Vi_DIRECTIONAL)) (
    chk 2607 (let! v12 := deref v9 in Ok (has_value (vi_dir v12))) (
    chk 2608 (let! v13 := deref v9 in let! v14 := deref (vi_dir v13) in Ok (DirType_beq (dirType v14) DT_VALUE_CARDINAL)) (
    chk 2609 (let! v15 := deref v9 in let! v16 := deref (vi_dir v15) in Ok (Cardinal_beq (Direction_cardinal v16 false) Cd_W)) (
    chk 2611 (let! v17 := deref v9 in Ok (negb (has_value (vi_rw v17)))) (
    chk 2613 (let! v18 := deref v9 in Ok (DistModifier_beq (distModifier (VisibilityGroup_visibility v18)) DM_MORE_THAN)) (
    chk 2614 (let! v19 := deref v9 in Ok (Distance_isReported (VisibilityGroup_visibility v19))) (
    chk 2615 (let! v20 := deref v9 in Ok (has_value (Distance_distance (VisibilityGroup_visibility v20)))) (
    chk 2616 (let! v21 := deref v9 in let! v22 := deref (Distance_distance (VisibilityGroup_visibility v21)) in Ok (near v22 (dlit (6) 1) (dlit (1) 200))) (
    chk 2617 (let! v23 := deref v9 in Ok (DistUnit_beq (distUnit (VisibilityGroup_visibility v23)) STATUTE_MILES)) (
    chk 2619 (let! v24 := deref v9 in Ok (negb (Distance_isReported (VisibilityGroup_minVisibility v24)))) (
    chk 2620 (let! v25 := deref v9 in Ok (negb (Distance_isReported (VisibilityGroup_maxVisibility v25)))) (
    chk 2621 (let! v26 := deref v9 in let! v27 := (VisibilityGroup_sectorDirections v26) in Ok (N.eqb (N.of_nat (List.length v27)) 0%N)) (
    chk 2622 (let! v28 := deref v9 in Ok (ViTrend_beq (vi_trend v28) Vt_NONE)) (
    chk 2623 (let! v29 := deref v9 in Ok (VisibilityGroup_isValid v29)) (
    None))))))))))))))))))))))).

Definition t_VisibilityGroup_parseRmkVisDirectionalNonVariableModifierFraction : option N :=
    step 2627 ((VisibilityGroup_parse "VIS" RP_RMK md_default)) (fun v1 => 
    chk 2628 (Ok (has_value v1)) (
    step 2630 (let! v2 := deref v1 in VisibilityGroup_append v2 "W" RP_RMK md_default) (fun p => let v3 := Some (fst p) in let v4 := snd p in 
    chk 2630 (Ok (AppendResult_beq v4 APPENDED)) (
    step 2632 (let! v5 := deref v3 in VisibilityGroup_append v5 "M1/16" RP_RMK md_default) (fun p => let v6 := Some (fst p) in let v7 := snd p in 
    chk 2632 (Ok (AppendResult_beq v7 APPENDED)) (
    step 2634 (let! v8 := deref v6 in VisibilityGroup_append v8 "" RP_RMK md_default) (fun p => let v9 := Some (fst p) in let v10 := snd p in 
    chk 2634 (Ok (AppendResult_beq v10 NOT_APPENDED)) (
    chk 2637 (let! v11 := deref v9 in Ok (ViType_beq (vi_type v11) Vi_DIRECTIONAL)) (
    chk 2638 (let! v12 := deref v9 in Ok (has_value (vi_dir v12))) (
    chk 2639 (let! v13 := deref v9 in let! v14 := deref (vi_dir v13) in Ok (DirType_beq (dirType v14) DT_VALUE_CARDINAL)) (
    chk 2640 (let! v15 := deref v9 in let! v16 := deref (vi_dir v15) in Ok (Cardinal_beq (Direction_cardinal v16 false) Cd_W)) (
    chk 2642 (let! v17 := deref v9 in Ok (negb (has_value (vi_rw v17)))) (
    chk 2644 (let! v18 := deref v9 in Ok (DistModifier_beq (distModifier (VisibilityGroup_visibility v18)) DM_LESS_THAN)) (
    chk 2645 (let! v19 := deref v9 in Ok (Distance_isReported (VisibilityGroup_visibility v19))) (
    chk 2646 (let! v20 := deref v9 in Ok (has_value (Distance_distance (VisibilityGroup_visibility v20)))) (
    chk 2647 (let! v21 := deref v9 in let! v22 := deref (Distance_distance (VisibilityGroup_visibility v21)) in Ok (near v22 (dlit (1) 16) (dlit (1) 200))) (
    chk 2648 (let! v23 := deref v9 in Ok (DistUnit_beq (distUnit (VisibilityGroup_visibility v23)) STATUTE_MILES)) (
    chk 2650 (let! v24 := deref v9 in Ok (negb (Distance_isReported (VisibilityGroup_minVisibility v24)))) (
    chk 2651 (let! v25 := deref v9 in Ok (negb (Distance_isReported (VisibilityGroup_maxVisibility v25)))) (
    chk 2652 (let! v26 := deref v9 in let! v27 := (VisibilityGroup_sectorDirections v26) in Ok (N.eqb (N.of_nat (List.length v27)) 0%N)) (
    chk 2653 (let! v28 := deref v9 in Ok (ViTrend_beq (vi_trend v28) Vt_NONE)) (
    chk 2654 (let! v29 := deref v9 in Ok (VisibilityGroup_isValid v29)) (
    None))))))))))))))))))))))).

Definition t_VisibilityGroup_parseRmkVisSectorIntegerVariableInteger : option N :=
    step 2665 ((VisibilityGroup_parse "VIS" RP_RMK md_default)) (fun v1 => 
    chk 2666 (Ok (has_value v1)) (
    step 2668 (let! v2 := deref v1 in VisibilityGroup_append v2 "SW-N" RP_RMK md_default) (fun p => let v3 := Some (fst p) in let v4 := snd p in 
    chk 2668 (Ok (AppendResult_beq v4 APPENDED)) (
    step 2670 (let! v5 := deref v3 in VisibilityGroup_append v5 "1V3" RP_RMK md_default) (fun p => let v6 := Some (fst p) in let v7 := snd p in 
    chk 2670 (Ok (AppendResult_beq v7 APPENDED)) (
    step 2672 (let! v8 := deref v6 in VisibilityGroup_append v8 "" RP_RMK md_default) (fun p => let v9 := Some (fst p) in let v10 := snd p in 
    chk 2672 (Ok (AppendResult_beq v10 NOT_APPENDED)) (
    chk 2675 (let! v11 := deref v9 in Ok (ViType_beq (vi_type v11) Vi_VARIABLE_SECTOR)) (
    chk 2676 (let! v12 := deref v9 in Ok (negb (Distance_isReported (VisibilityGroup_visibility v12)))) (
    chk 2677 (let! v13 := deref v9 in Ok (negb (has_value (vi_dir v13)))) (
    chk 2679 (let! v14 := deref v9 in Ok (negb (has_value (vi_rw v14)))) (
    chk 2681 (let! v15 := deref v9 in Ok (DistModifier_beq (distModifier (VisibilityGroup_minVisibility v15)) DM_NONE)) (
    chk 2682 (let! v16 := deref v9 in Ok (Distance_isReported (VisibilityGroup_minVisibility v16))) (
    chk 2683 (let! v17 := deref v9 in Ok (has_value (Distance_distance (VisibilityGroup_minVisibility v17)))) (
    chk 2684 (let! v18 := deref v9 in let! v19 := deref (Distance_distance (VisibilityGroup_minVisibility v18)) in Ok (near v19 (dlit (1) 1) (dlit (1) 200))) (
    chk 2685 (let! v20 := deref v9 in Ok (DistUnit_beq (distUnit (VisibilityGroup_minVisibility v20)) STATUTE_MILES)) (
    chk 2687 (let! v21 := deref v9 in Ok (DistModifier_beq (distModifier (VisibilityGroup_maxVisibility v21)) DM_NONE)) (
    chk 2688 (let! v22 := deref v9 in Ok (Distance_isReported (VisibilityGroup_maxVisibility v22))) (
    chk 2689 (let! v23 := deref v9 in Ok (has_value (Distance_distance (VisibilityGroup_maxVisibility v23)))) (
    chk 2690 (let! v24 := deref v9 in let! v25 := deref (Distance_distance (VisibilityGroup_maxVisibility v24)) in Ok (near v25 (dlit (3) 1) (dlit (1) 200))) (
    chk 2691 (let! v26 := deref v9 in Ok (DistUnit_beq (distUnit (VisibilityGroup_maxVisibility v26)) STATUTE_MILES)) (
    chk 2693 (let! v27 := deref v9 in let! v28 := (VisibilityGroup_sectorDirections v27) in Ok (N.eqb (N.of_nat (List.length v28)) 4%N)) (
    chk 2694 (let! v29 := deref v9 in let! v30 := (VisibilityGroup_sectorDirections v29) in let! v31 := deref (List.nth_error v30 0%nat) in Ok (Cardinal_beq (Direction_cardinal v31 false) Cd_SW)) (
    chk 2695 (let! v32 := deref v9 in let! v33 := (VisibilityGroup_sectorDirections v32) in let! v34 := deref (List.nth_error v33 1%nat) in Ok (Cardinal_beq (Direction_cardinal v34 false) Cd_W)) (
    chk 2696 (let! v35 := deref v9 in let! v36 := (VisibilityGroup_sectorDirections v35) in let! v37 := deref (List.nth_error v36 2%nat) in Ok (Cardinal_beq (Direction_cardinal v37 false) Cd_NW)) (
    chk 2697 (let! v38 := deref v9 in let! v39 := (VisibilityGroup_sectorDirections v38) in let! v40 := deref (List.nth_error v39 3%nat) in Ok (Cardinal_beq (Direction_cardinal v40 false) Cd_N)) (
    chk 2699 (let! v41 := deref v9 in Ok (ViTrend_beq (vi_trend v41) Vt_NONE)) (
    chk 2700 (let! v42 := deref v9 in Ok (VisibilityGroup_isValid v42)) (
    None))))))))))))))))))))))))))))).

Definition t_VisibilityGroup_parseRmkVisSectorFractionVariableInteger : option N :=
    step 2704 ((VisibilityGroup_parse "VIS" RP_RMK md_default)) (fun v1 => 
    chk 2705 (Ok (has_value v1)) (
    step 2707 (let! v2 := deref v1 in VisibilityGroup_append v2 "SW-N" RP_RMK md_default) (fun p => let v3 := Some (fst p) in let v4 := snd p in 
    chk 2707 (Ok (AppendResult_beq v4 APPENDED)) (
    step 2709 (let! v5 := deref v3 in VisibilityGroup_append v5 "1/2V3" RP_RMK md_default) (fun p => let v6 := Some (fst p) in let v7 := snd p in 
    chk 2709 (Ok (AppendResult_beq v7 APPENDED)) (
    step 2711 (let! v8 := deref v6 in VisibilityGroup_append v8 "" RP_RMK md_default) (fun p => let v9 := Some (fst p) in let v10 := snd p in 
    chk 2711 (Ok (AppendResult_beq v10 NOT_APPENDED)) (
    chk 2714 (let! v11 := deref v9 in Ok (ViType_beq (vi_type v11) Vi_VARIABLE_SECTOR)) (
    chk 2715 (let! v12 := deref v9 in Ok (negb (Distance_isReported (VisibilityGroup_visibility v12)))) (
    chk 2716 (let! v13 := deref v9 in Ok (negb (has_value (vi_dir v13)))) (
    chk 2718 (let! v14 := deref v9 in Ok (negb (has_value (vi_rw v14)))) (
    chk 2720 (let! v15 := deref v9 in Ok (DistModifier_beq (distModifier (VisibilityGroup_minVisibility v15)) DM_NONE)) (
    chk 2721 (let! v16 := deref v9 in Ok (Distance_isReported (VisibilityGroup_minVisibility v16))) (
    chk 2722 (let! v17 := deref v9 in Ok (has_value (Distance_distance (VisibilityGroup_minVisibility v17)))) (
    chk 2723 (let! v18 := deref v9 in let! v19 := deref (Distance_distance (VisibilityGroup_minVisibility v18)) in Ok (near v19 (dlit (1) 2) (dlit (1) 200))) (
    chk 2724 (let! v20 := deref v9 in Ok (DistUnit_beq (distUnit (VisibilityGroup_minVisibility v20)) STATUTE_MILES)) (
    chk 2726 (let! v21 := deref v9 in Ok (DistModifier_beq (distModifier (VisibilityGroup_maxVisibility v21)) DM_NONE)) (
    chk 2727 (let! v22 := deref v9 in Ok (Distance_isReported (VisibilityGroup_maxVisibility v22))) (
    chk 2728 (let! v23 := deref v9 in Ok (has_value (Distance_distance (VisibilityGroup_maxVisibility v23)))) (
    chk 2729 (let! v24 := deref v9 in let! v25 := deref (Distance_distance (VisibilityGroup_maxVisibility v24)) in Ok (near v25 (dlit (3) 1) (dlit (1) 200))) (
    chk 2730 (let! v26 := deref v9 in Ok (DistUnit_beq (distUnit (VisibilityGroup_maxVisibility v26)) STATUTE_MILES)) (
    chk 2732 (let! v27 := deref v9 in let! v28 := (VisibilityGroup_sectorDirections v27) in Ok (N.eqb (N.of_nat (List.length v28)) 4%N)) (
    chk 2733 (let! v29 := deref v9 in let! v30 := (VisibilityGroup_sectorDirections v29) in let! v31 := deref (List.nth_error v30 0%nat) in Ok (Cardinal_beq (Direction_cardinal v31 false) Cd_SW)) (
    chk 2734 (let! v32 := deref v9 in let! v33 := (VisibilityGroup_sectorDirections v32) in let! v34 := deref (List.nth_error v33 1%nat) in Ok (Cardinal_beq (Direction_cardinal v34 false) Cd_W)) (
    chk 2735 (let! v35 := deref v9 in let! v36 := (VisibilityGroup_sectorDirections v35) in let! v37 := deref (List.nth_error v36 2%nat) in Ok (Cardinal_beq (Direction_cardinal v37 false) Cd_NW)) (
    chk 2736 (let! v38 := deref v9 in let! v39 := (VisibilityGroup_sectorDirections v38) in let! v40 := deref (List.nth_error v39 3%nat) in Ok (Cardinal_beq (Direction_cardinal v40 false) Cd_N)) (
    chk 2738 (let! v41 := deref v9 in Ok (ViTrend_beq (vi_trend v41) Vt_NONE)) (
    chk 2739 (let! v42 := deref v9 in Ok (VisibilityGroup_isValid v42)) (
    None))))))))))))))))))))))))))))).

Definition t_VisibilityGroup_parseRmkVisSectorFractionVariableFraction : option N :=
    step 2743 ((VisibilityGroup_parse "VIS" RP_RMK md_default)) (fun v1 => 
    chk 2744 (Ok (has_value v1)) (
    step 2746 (let! v2 := deref v1 in VisibilityGroup_append v2 "SW-N" RP_RMK md_default) (fun p => let v3 := Some (fst p) in let v4 := snd p in 
    chk 2746 (Ok (AppendResult_beq v4 APPENDED)) (
    step 2748 (let! v5 := deref v3 in VisibilityGroup_append v5 "1/8V3/4" RP_RMK md_default) (fun p => let v6 := Some (fst p) in let v7 := snd p in 
    chk 2748 (Ok (AppendResult_beq v7 APPENDED)) (
    step 2750 (let! v8 := deref v6 in VisibilityGroup_append v8 "" RP_RMK md_default) (fun p => let v9 := Some (fst p) in let v10 := snd p in 
    chk 2750 (Ok (AppendResult_beq v10 NOT_APPENDED)) (
    chk 2753 (let! v11 := deref v9 in Ok (ViType_beq (vi_type v11) Vi_VARIABLE_SECTOR)) (
    chk 2754 (let! v12 := deref v9 in Ok (negb (Distance_isReported (VisibilityGroup_visibility v12)))) (
    chk 2755 (let! v13 := deref v9 in Ok (negb (has_value (vi_dir v13)))) (
    chk 2757 (let! v14 := deref v9 in Ok (negb (has_value (vi_rw v14)))) (
    chk 2759 (let! v15 := deref v9 in Ok (DistModifier_beq (distModifier (VisibilityGroup_minVisibility v15)) DM_NONE)) (
    chk 2760 (let! v16 := deref v9 in Ok (Distance_isReported (VisibilityGroup_minVisibility v16))) (
    chk 2761 (let! v17 := deref v9 in Ok (has_value (Distance_distance (VisibilityGroup_minVisibility v17)))) (
    chk 2762 (let! v18 := deref v9 in let! v19 := deref (Distance_distance (VisibilityGroup_minVisibility v18)) in Ok (near v19 (dlit (1) 8) (dlit (1) 200))) (
    chk 2763 (let! v20 := deref v9 in Ok (DistUnit_beq (distUnit (VisibilityGroup_minVisibility v20)) STATUTE_MILES)) (
    chk 2765 (let! v21 := deref v9 in Ok (DistModifier_beq (distModifier (VisibilityGroup_maxVisibility v21)) DM_NONE)) (
    chk 2766 (let! v22 := deref v9 in Ok (Distance_isReported (VisibilityGroup_maxVisibility v22))) (
    chk 2767 (let! v23 := deref v9 in Ok (has_value (Distance_distance (VisibilityGroup_maxVisibility v23)))) (
    chk 2768 (let! v24 := deref v9 in let! v25 := deref (Distance_distance (VisibilityGroup_maxVisibility v24)) in Ok (flt_eqb v25 (dlit (3) 4))) (
    chk 2769 (let! v26 := deref v9 in Ok (DistUnit_beq (distUnit (VisibilityGroup_maxVisibility v26)) STATUTE_MILES)) (
    chk 2771 (let! v27 := deref v9 in let! v28 := (VisibilityGroup_sectorDirections v27) in Ok (N.eqb (N.of_nat (List.length v28)) 4%N)) (
    chk 2772 (let! v29 := deref v9 in let! v30 := (VisibilityGroup_sectorDirections v29) in let! v31 := deref (List.nth_error v30 0%nat) in Ok (Cardinal_beq (Direction_cardinal v31 false) Cd_SW)) (
    chk 2773 (let! v32 := deref v9 in let! v33 := (VisibilityGroup_sectorDirections v32) in let! v34 := deref (List.nth_error v33 1%nat) in Ok (Cardinal_beq (Direction_cardinal v34 false) Cd_W)) (
    chk 2774 (let! v35 := deref v9 in let! v36 := (VisibilityGroup_sectorDirections v35) in let! v37 := deref (List.nth_error v36 2%nat) in Ok (Cardinal_beq (Direction_cardinal v37 false) Cd_NW)) (
    chk 2775 (let! v38 := deref v9 in let! v39 := (VisibilityGroup_sectorDirections v38) in let! v40 := deref (List.nth_error v39 3%nat) in Ok (Cardinal_beq (Direction_cardinal v40 false) Cd_N)) (
    chk 2777 (let! v41 := deref v9 in Ok (ViTrend_beq (vi_trend v41) Vt_NONE)) (
    chk 2778 (let! v42 := deref v9 in Ok (VisibilityGroup_isValid v42)) (
    None))))))))))))))))))))))))))))).

Definition t_VisibilityGroup_parseRmkVisSectorIntegerFractionVariableInteger : option N :=
    step 2782 ((VisibilityGroup_parse "VIS" RP_RMK md_default)) (fun v1 => 
    chk 2783 (Ok (has_value v1)) (
    step 2785 (let! v2 := deref v1 in VisibilityGroup_append v2 "SW-N" RP_RMK md_default) (fun p => let v3 := Some (fst p) in let v4 := snd p in 
    chk 2785 (Ok (AppendResult_beq v4 APPENDED)) (
    step 2787 (let! v5 := deref v3 in VisibilityGroup_append v5 "2" RP_RMK md_default) (fun p => let v6 := Some (fst p) in let v7 := snd p in 
    chk 2787 (Ok (AppendResult_beq v7 APPENDED)) (
    step 2789 (let! v8 := deref v6 in VisibilityGroup_append v8 "1/4V3" RP_RMK md_default) (fun p => let v9 := Some (fst p) in let v10 := snd p in 
    chk 2789 (Ok (AppendResult_beq v10 APPENDED)) (
    step 2791 (let! v11 := deref v9 in VisibilityGroup_append v11 "" RP_RMK md_default) (fun p => let v12 := Some (fst p) in let v13 := snd p in 
    chk 2791 (Ok (AppendResult_beq v13 NOT_APPENDED)) (
    chk 2794 (let! v14 := deref v12 in Ok (negb (has_value (vi_rw v14)))) (
    chk 2796 (let! v15 := deref v12 in Ok (ViType_beq (vi_type v15) Vi_VARIABLE_SECTOR)) (
    chk 2797 (let! v16 := deref v12 in Ok (negb (Distance_isReported (VisibilityGroup_visibility v16)))) (
    chk 2798 (let! v17 := deref v12 in Ok (negb (has_value (vi_dir v17)))) (
    chk 2800 (let! v18 := deref v12 in Ok (DistModifier_beq (distModifier (VisibilityGroup_minVisibility v18)) DM_NONE)) (
    chk 2801 (let! v19 := deref v12 in Ok (Distance_isReported (VisibilityGroup_minVisibility v19))) (
    chk 2802 (let! v20 := deref v12 in Ok (has_value (Distance_distance (VisibilityGroup_minVisibility v20)))) (
    chk 2803 (let! v21 := deref v12 in let! v22 := deref (Distance_distance (VisibilityGroup_minVisibility v21)) in Ok (near v22 (dlit (9) 4) (dlit (1) 200))) (
    chk 2804 (let! v23 := deref v12 in Ok (DistUnit_beq (distUnit (VisibilityGroup_minVisibility v23)) STATUTE_MILES)) (
    chk 2806 (let! v24 := deref v12 in Ok (DistModifier_beq (distModifier (VisibilityGroup_maxVisibility v24)) DM_NONE)) (
    chk 2807 (let! v25 := deref v12 in Ok (Distance_isReported (VisibilityGroup_maxVisibility v25))) (
    chk 2808 (let! v26 := deref v12 in Ok (has_value (Distance_distance (VisibilityGroup_maxVisibility v26)))) (
    chk 2809 (let! v27 := deref v12 in let! v28 := deref (Distance_distance (VisibilityGroup_maxVisibility v27)) in Ok (near v28 (dlit (3) 1) (dlit (1) 200))) (
    chk 2810 (let! v29 := deref v12 in Ok (DistUnit_beq (distUnit (VisibilityGroup_maxVisibility v29)) STATUTE_MILES)) (
    chk 2812 (let! v30 := deref v12 in let! v31 := (VisibilityGroup_sectorDirections v30) in Ok (N.eqb (N.of_nat (List.length v31)) 4%N)) (
    chk 2813 (let! v32 := deref v12 in let! v33 := (VisibilityGroup_sectorDirections v32) in let! v34 := deref (List.nth_error v33 0%nat) in Ok (Cardinal_beq (Direction_cardinal v34 false) Cd_SW)) (
    chk 2814 (let! v35 := deref v12 in let! v36 := (VisibilityGroup_sectorDirections v35) in let! v37 := deref (List.nth_error v36 1%nat) in Ok (Cardinal_beq (Direction_cardinal v37 false) Cd_W)) (
    chk 2815 (let! v38 := deref v12 in let! v39 := (VisibilityGroup_sectorDirections v38) in let! v40 := deref (List.nth_error v39 2%nat) in Ok (Cardinal_beq (Direction_cardinal v40 false) Cd_NW)) (
    chk 2816 (let! v41 := deref v12 in let! v42 := (VisibilityGroup_sectorDirections v41) in let! v43 := deref (List.nth_error v42 3%nat) in Ok (Cardinal_beq (Direction_cardinal v43 false) Cd_N)) (
    chk 2818 (let! v44 := deref v12 in Ok (ViTrend_beq (vi_trend v44) Vt_NONE)) (
    chk 2819 (let! v45 := deref v12 in Ok (VisibilityGroup_isValid v45)) (
    None))))))))))))))))))))))))))))))).

Definition t_VisibilityGroup_parseRmkVisSectorFractionVariableIntegerFraction : option N :=
    step 2823 ((VisibilityGroup_parse "VIS" RP_RMK md_default)) (fun v1 => 
    chk 2824 (Ok (has_value v1)) (
    step 2826 (let! v2 := deref v1 in VisibilityGroup_append v2 "SW-N" RP_RMK md_default) (fun p => let v3 := Some (fst p) in let v4 := snd p in 
    chk 2826 (Ok (AppendResult_beq v4 APPENDED)) (
    step 2828 (let! v5 := deref v3 in VisibilityGroup_append v5 "1/2V2" RP_RMK md_default) (fun p => let v6 := Some (fst p) in let v7 := snd p in 
    chk 2828 (Ok (AppendResult_beq v7 APPENDED)) (
    step 2830 (let! v8 := deref v6 in VisibilityGroup_append v8 "3/4" RP_RMK md_default) (fun p => let v9 := Some (fst p) in let v10 := snd p in 
    chk 2830 (Ok (AppendResult_beq v10 APPENDED)) (
    step 2832 (let! v11 := deref v9 in VisibilityGroup_append v11 "" RP_RMK md_default) (fun p => let v12 := Some (fst p) in let v13 := snd p in 
    chk 2832 (Ok (AppendResult_beq v13 NOT_APPENDED)) (
    chk 2835 (let! v14 := deref v12 in Ok (ViType_beq (vi_type v14) Vi_VARIABLE_SECTOR)) (
    chk 2836 (let! v15 := deref v12 in Ok (negb (Distance_isReported (VisibilityGroup_visibility v15)))) (
    chk 2837 (let! v16 := deref v12 in Ok (negb (has_value (vi_dir v16)))) (
    chk 2839 (let! v17 := deref v12 in Ok (negb (has_value (vi_rw v17)))) (
    chk 2841 (let! v18 := deref v12 in Ok (DistModifier_beq (distModifier (VisibilityGroup_minVisibility v18)) DM_NONE)) (
    chk 2842 (let! v19 := deref v12 in Ok (Distance_isReported (VisibilityGroup_minVisibility v19))) (
    chk 2843 (let! v20 := deref v12 in Ok (has_value (Distance_distance (VisibilityGroup_minVisibility v20)))) (
    chk 2844 (let! v21 := deref v12 in let! v22 := deref (Distance_distance (VisibilityGroup_minVisibility v21)) in Ok (near v22 (dlit (1) 2) (dlit (1) 200))) (
    chk 2845 (let! v23 := deref v12 in Ok (DistUnit_beq (distUnit (VisibilityGroup_minVisibility v23)) STATUTE_MILES)) (
    chk 2847 (let! v24 := deref v12 in Ok (DistModifier_beq (distModifier (VisibilityGroup_maxVisibility v24)) DM_NONE)) (
    chk 2848 (let! v25 := deref v12 in Ok (Distance_isReported (VisibilityGroup_maxVisibility v25))) (
    chk 2849 (let! v26 := deref v12 in Ok (has_value (Distance_distance (VisibilityGroup_maxVisibility v26)))) (
    chk 2850 (let! v27 := deref v12 in let! v28 := deref (Distance_distance (VisibilityGroup_maxVisibility v27)) in Ok (near v28 (dlit (11) 4) (dlit (1) 200))) (
    chk 2851 (let! v29 := deref v12 in Ok (DistUnit_beq (distUnit (VisibilityGroup_maxVisibility v29)) STATUTE_MILES)) (
    chk 2853 (let! v30 := deref v12 in let! v31 := (VisibilityGroup_sectorDirections v30) in Ok (N.eqb (N.of_nat (List.length v31)) 4%N)) (
    chk 2854 (let! v32 := deref v12 in let! v33 := (VisibilityGroup_sectorDirections v32) in let! v34 := deref (List.nth_error v33 0%nat) in Ok (Cardinal_beq (Direction_cardinal v34 false) Cd_SW)) (
    chk 2855 (let! v35 := deref v12 in let! v36 := (VisibilityGroup_sectorDirections v35) in let! v37 := deref (List.nth_error v36 1%nat) in Ok (Cardinal_beq (Direction_cardinal v37 false) Cd_W)) (
    chk 2856 (let! v38 := deref v12 in let! v39 := (VisibilityGroup_sectorDirections v38) in let! v40 := deref (List.nth_error v39 2%nat) in Ok (Cardinal_beq (Direction_cardinal v40 false) Cd_NW)) (
    chk 2857 (let! v41 := deref v12 in let! v42 := (VisibilityGroup_sectorDirections v41) in let! v43 := deref (List.nth_error v42 3%nat) in Ok (Cardinal_beq (Direction_cardinal v43 false) Cd_N)) (
    chk 2859 (let! v44 := deref v12 in Ok (ViTrend_beq (vi_trend v44) Vt_NONE)) (
    chk 2860 (let! v45 := deref v12 in Ok (VisibilityGroup_isValid v45)) (
    None))))))))))))))))))))))))))))))).

Definition t_VisibilityGroup_parseRmkVisSectorIntegerFractionVariableIntegerFraction : option N :=
    step 2864 ((VisibilityGroup_parse "VIS" RP_RMK md_default)) (fun v1 => 
    chk 2865 (Ok (has_value v1)) (
    step 2867 (let! v2 := deref v1 in VisibilityGroup_append v2 "SW-N" RP_RMK md_default) (fun p => let v3 := Some (fst p) in let v4 := snd p in 
    chk 2867 (Ok (AppendResult_beq v4 APPENDED)) (
    step 2869 (let! v5 := deref v3 in VisibilityGroup_append v5 "1" RP_RMK md_default) (fun p => let v6 := Some (fst p) in let v7 := snd p in 
    chk 2869 (Ok (AppendResult_beq v7 APPENDED)) (
    step 2871 (let! v8 := deref v6 in VisibilityGroup_append v8 "3/4V2" RP_RMK md_default) (fun p => let v9 := Some (fst p) in let v10 := snd p in 
    chk 2871 (Ok (AppendResult_beq v10 APPENDED)) (
    step 2873 (let! v11 := deref v9 in VisibilityGroup_append v11 "1/2" RP_RMK md_default) (fun p => let v12 := Some (fst p) in let v13 := snd p in 
    chk 2873 (Ok (AppendResult_beq v13 APPENDED)) (
    step 2875 (let! v14 := deref v12 in VisibilityGroup_append v14 "" RP_RMK md_default) (fun p => let v15 := Some (fst p) in let v16 := snd p in 
    chk 2875 (Ok (AppendResult_beq v16 NOT_APPENDED)) (
    chk 2878 (let! v17 := deref v15 in Ok (ViType_beq (vi_type v17) Vi_VARIABLE_SECTOR)) (
    chk 2879 (let! v18 := deref v15 in Ok (negb (Distance_isReported (VisibilityGroup_visibility v18)))) (
    chk 2880 (let! v19 := deref v15 in Ok (negb (has_value (vi_dir v19)))) (
    chk 2882 (let! v20 := deref v15 in Ok (negb (has_value (vi_rw v20)))) (
    chk 2884 (let! v21 := deref v15 in Ok (DistModifier_beq (distModifier (VisibilityGroup_minVisibility v21)) DM_NONE)) (
    chk 2885 (let! v22 := deref v15 in Ok (Distance_isReported (VisibilityGroup_minVisibility v22))) (
    chk 2886 (let! v23 := deref v15 in Ok (has_value (Distance_distance (VisibilityGroup_minVisibility v23)))) (
    chk 2887 (let! v24 := deref v15 in let! v25 := deref (Distance_distance (VisibilityGroup_minVisibility v24)) in Ok (near v25 (dlit (7) 4) (dlit (1) 200))) (
    chk 2888 (let! v26 := deref v15 in Ok (DistUnit_beq (distUnit (VisibilityGroup_minVisibility v26)) STATUTE_MILES)) (
    chk 2890 (let! v27 := deref v15 in Ok (DistModifier_beq (distModifier (VisibilityGroup_maxVisibility v27)) DM_NONE)) (
    chk 2891 (let! v28 := deref v15 in Ok (Distance_isReported (VisibilityGroup_maxVisibility v28))) (
    chk 2892 (let! v29 := deref v15 in Ok (has_value (Distance_distance (VisibilityGroup_maxVisibility v29)))) (
    chk 2893 (let! v30 := deref v15 in let! v31 := deref (Distance_distance (VisibilityGroup_maxVisibility v30)) in Ok (near v31 (dlit (5) 2) (dlit (1) 200))) (
    chk 2894 (let! v32 := deref v15 in Ok (DistUnit_beq (distUnit (VisibilityGroup_maxVisibility v32)) STATUTE_MILES)) (
    chk 2896 (let! v33 := deref v15 in let! v34 := (VisibilityGroup_sectorDirections v33) in Ok (N.eqb (N.of_nat (List.length v34)) 4%N)) (
    chk 2897 (let! v35 := deref v15 in let! v36 := (VisibilityGroup_sectorDirections v35) in let! v37 := deref (List.nth_error v36 0%nat) in Ok (Cardinal_beq (Direction_cardinal v37 false) Cd_SW)) (
    chk 2898 (let! v38 := deref v15 in let! v39 := (VisibilityGroup_sectorDirections v38) in let! v40 := deref (List.nth_error v39 1%nat) in Ok (Cardinal_beq (Direction_cardinal v40 false) Cd_W)) (
    chk 2899 (let! v41 := deref v15 in let! v42 := (VisibilityGroup_sectorDirections v41) in let! v43 := deref (List.nth_error v42 2%nat) in Ok (Cardinal_beq (Direction_cardinal v43 false) Cd_NW)) (
    chk 2900 (let! v44 := deref v15 in let! v45 := (VisibilityGroup_sectorDirections v44) in let! v46 := deref (List.nth_error v45 3%nat) in Ok (Cardinal_beq (Direction_cardinal v46 false) Cd_N)) (
    chk 2902 (let! v47 := deref v15 in Ok (ViTrend_beq (vi_trend v47) Vt_NONE)) (
    chk 2903 (let! v48 := deref v15 in Ok (VisibilityGroup_isValid v48)) (
    None))))))))))))))))))))))))))))))))).

Definition t_VisibilityGroup_parseRmkVisSectorVariableMeters : option N :=
    step 2907 ((VisibilityGroup_parse "VIS" RP_RMK md_default)) (fun v1 => 
    chk 2908 (Ok (has_value v1)) (
    step 2910 (let! v2 := deref v1 in VisibilityGroup_append v2 "SW-N" RP_RMK md_default) (fun p => let v3 := Some (fst p) in let v4 := snd p in 
    chk 2910 (Ok (AppendResult_beq v4 APPENDED)) (
    step 2912 (let! v5 := deref v3 in VisibilityGroup_append v5 "1200V9999" RP_RMK md_default) (fun p => let v6 := Some (fst p) in let v7 := snd p in 
    chk 2912 (Ok (AppendResult_beq v7 APPENDED)) (
    step 2914 (let! v8 := deref v6 in VisibilityGroup_append v8 "" RP_RMK md_default) (fun p => let v9 := Some (fst p) in let v10 := snd p in 
    chk 2914 (Ok (AppendResult_beq v10 NOT_APPENDED)) (
    chk 2917 (let! v11 := deref v9 in Ok (ViType_beq (vi_type v11) Vi_VARIABLE_SECTOR)) (
    chk 2918 (let! v12 := deref v9 in Ok (negb (Distance_isReported (VisibilityGroup_visibility v12)))) (
    chk 2919 (let! v13 := deref v9 in Ok (negb (has_value (vi_dir v13)))) (
    chk 2921 (let! v14 := deref v9 in Ok (negb (has_value (vi_rw v14)))) (
    chk 2923 (let! v15 := deref v9 in Ok (Distance_isReported (VisibilityGroup_minVisibility v15))) (
    chk 2924 (let! v16 := deref v9 in Ok (has_value (Distance_distance (VisibilityGroup_minVisibility v16)))) (
    chk 2925 (let! v17 := deref v9 in let! v18 := deref (Distance_distance (VisibilityGroup_minVisibility v17)) in Ok (near v18 (dlit (1200) 1) (dlit (1) 200))) (
    chk 2926 (let! v19 := deref v9 in Ok (DistModifier_beq (distModifier (VisibilityGroup_minVisibility v19)) DM_NONE)) (
    chk 2927 (let! v20 := deref v9 in Ok (DistUnit_beq (distUnit (VisibilityGroup_minVisibility v20)) METERS)) (
    chk 2929 (let! v21 := deref v9 in Ok (Distance_isReported (VisibilityGroup_maxVisibility v21))) (
    chk 2930 (let! v22 := deref v9 in Ok (has_value (Distance_distance (VisibilityGroup_maxVisibility v22)))) (
    chk 2931 (let! v23 := deref v9 in let! v24 := deref (Distance_distance (VisibilityGroup_maxVisibility v23)) in Ok (near v24 (dlit (10000) 1) (dlit (1) 200))) (
    chk 2932 (let! v25 := deref v9 in Ok (DistModifier_beq (distModifier (VisibilityGroup_maxVisibility v25)) DM_MORE_THAN)) (
    chk 2933 (let! v26 := deref v9 in Ok (DistUnit_beq (distUnit (VisibilityGroup_maxVisibility v26)) METERS)) (
    chk 2935 (let! v27 := deref v9 in let! v28 := (VisibilityGroup_sectorDirections v27) in Ok (N.eqb (N.of_nat (List.length v28)) 4%N)) (
    chk 2936 (let! v29 := deref v9 in let! v30 := (VisibilityGroup_sectorDirections v29) in let! v31 := deref (List.nth_error v30 0%nat) in Ok (Cardinal_beq (Direction_cardinal v31 false) Cd_SW)) (
    chk 2937 (let! v32 := deref v9 in let! v33 := (VisibilityGroup_sectorDirections v32) in let! v34 := deref (List.nth_error v33 1%nat) in Ok (Cardinal_beq (Direction_cardinal v34 false) Cd_W)) (
    chk 2938 (let! v35 := deref v9 in let! v36 := (VisibilityGroup_sectorDirections v35) in let! v37 := deref (List.nth_error v36 2%nat) in Ok (Cardinal_beq (Direction_cardinal v37 false) Cd_NW)) (
    chk 2939 (let! v38 := deref v9 in let! v39 := (VisibilityGroup_sectorDirections v38) in let! v40 := deref (List.nth_error v39 3%nat) in Ok (Cardinal_beq (Direction_cardinal v40 false) Cd_N)) (
    chk 2941 (let! v41 := deref v9 in Ok (ViTrend_beq (vi_trend v41) Vt_NONE)) (
    chk 2942 (let! v42 := deref v9 in Ok (VisibilityGroup_isValid v42)) (
    None))))))))))))))))))))))))))))).

Definition t_VisibilityGroup_parseRmkVisSectorModifierFractionVariableInteger : option N :=
    step 2946 ((VisibilityGroup_parse "VIS" RP_RMK md_default)) (fun v1 => 
    chk 2947 (Ok (has_value v1)) (
    step 2949 (let! v2 := deref v1 in VisibilityGroup_append v2 "SW-N" RP_RMK md_default) (fun p => let v3 := Some (fst p) in let v4 := snd p in 
    chk 2949 (Ok (AppendResult_beq v4 APPENDED)) (
    step 2951 (let! v5 := deref v3 in VisibilityGroup_append v5 "M1/4V5" RP_RMK md_default) (fun p => let v6 := Some (fst p) in let v7 := snd p in 
    chk 2951 (Ok (AppendResult_beq v7 APPENDED)) (
    step 2953 (let! v8 := deref v6 in VisibilityGroup_append v8 "" RP_RMK md_default) (fun p => let v9 := Some (fst p) in let v10 := snd p in 
    chk 2953 (Ok (AppendResult_beq v10 NOT_APPENDED)) (
    chk 2956 (let! v11 := deref v9 in Ok (ViType_beq (vi_type v11) Vi_VARIABLE_SECTOR)) (
    chk 2957 (let! v12 := deref v9 in Ok (negb (Distance_isReported (VisibilityGroup_visibility v12)))) (
    chk 2958 (let! v13 := deref v9 in Ok (negb (has_value (vi_dir v13)))) (
    chk 2960 (let! v14 := deref v9 in Ok (DistModifier_beq (distModifier (VisibilityGroup_minVisibility v14)) DM_LESS_THAN)) (
    chk 2961 (let! v15 := deref v9 in Ok (Distance_isReported (VisibilityGroup_minVisibility v15))) (
    chk 2962 (let! v16 := deref v9 in Ok (has_value (Distance_distance (VisibilityGroup_minVisibility v16)))) (
    chk 2963 (let! v17 := deref v9 in let! v18 := deref (Distance_distance (VisibilityGroup_minVisibility v17)) in Ok (near v18 (dlit (1) 4) (dlit (1) 200))) (
    chk 2964 (let! v19 := deref v9 in Ok (DistUnit_beq (distUnit (VisibilityGroup_minVisibility v19)) STATUTE_MILES)) (
    chk 2966 (let! v20 := deref v9 in Ok (DistUnit_beq (distUnit (VisibilityGroup_maxVisibility v20)) STATUTE_MILES)) (
    chk 2967 (let! v21 := deref v9 in Ok (Distance_isReported (VisibilityGroup_maxVisibility v21))) (
    chk 2968 (let! v22 := deref v9 in Ok (has_value (Distance_distance (VisibilityGroup_maxVisibility v22)))) (
    chk 2969 (let! v23 := deref v9 in let! v24 := deref (Distance_distance (VisibilityGroup_maxVisibility v23)) in Ok (near v24 (dlit (5) 1) (dlit (1) 200))) (
    chk 2970 (let! v25 := deref v9 in Ok (DistModifier_beq (distModifier (VisibilityGroup_maxVisibility v25)) DM_NONE)) (
    chk 2972 (let! v26 := deref v9 in let! v27 := (VisibilityGroup_sectorDirections v26) in Ok (N.eqb (N.of_nat (List.length v27)) 4%N)) (
    chk 2973 (let! v28 := deref v9 in let! v29 := (VisibilityGroup_sectorDirections v28) in let! v30 := deref (List.nth_error v29 0%nat) in Ok (Cardinal_beq (Direction_cardinal v30 false) Cd_SW)) (
    chk 2974 (let! v31 := deref v9 in let! v32 := (VisibilityGroup_sectorDirections v31) in let! v33 := deref (List.nth_error v32 1%nat) in Ok (Cardinal_beq (Direction_cardinal v33 false) Cd_W)) (
    chk 2975 (let! v34 := deref v9 in let! v35 := (VisibilityGroup_sectorDirections v34) in let! v36 := deref (List.nth_error v35 2%nat) in Ok (Cardinal_beq (Direction_cardinal v36 false) Cd_NW)) (
    chk 2976 (let! v37 := deref v9 in let! v38 := (VisibilityGroup_sectorDirections v37) in let! v39 := deref (List.nth_error v38 3%nat) in Ok (Cardinal_beq (Direction_cardinal v39 false) Cd_N)) (
    chk 2978 (let! v40 := deref v9 in Ok (ViTrend_beq (vi_trend v40) Vt_NONE)) (
    chk 2979 (let! v41 := deref v9 in Ok (VisibilityGroup_isValid v41)) (
    None)))))))))))))))))))))))))))).

Definition t_VisibilityGroup_parseRmkVisSectorFractionVariableModifierInteger : option N :=
    step 2983 ((VisibilityGroup_parse "VIS" RP_RMK md_default)) (fun v1 => 
    chk 2984 (Ok (has_value v1)) (
    step 2986 (let! v2 := deref v1 in VisibilityGroup_append v2 "SW-N" RP_RMK md_default) (fun p => let v3 := Some (fst p) in let v4 := snd p in 
    chk 2986 (Ok (AppendResult_beq v4 APPENDED)) (
    step 2988 (let! v5 := deref v3 in VisibilityGroup_append v5 "1/4VP6" RP_RMK md_default) (fun p => let v6 := Some (fst p) in let v7 := snd p in 
    chk 2988 (Ok (AppendResult_beq v7 APPENDED)) (
    step 2990 (let! v8 := deref v6 in VisibilityGroup_append v8 "" RP_RMK md_default) (fun p => let v9 := Some (fst p) in let v10 := snd p in 
    chk 2990 (Ok (AppendResult_beq v10 NOT_APPENDED)) (
    chk 2993 (let! v11 := deref v9 in Ok (ViType_beq (vi_type v11) Vi_VARIABLE_SECTOR)) (
    chk 2994 (let! v12 := deref v9 in Ok (negb (Distance_isReported (VisibilityGroup_visibility v12)))) (
    chk 2995 (let! v13 := deref v9 in Ok (negb (has_value (vi_dir v13)))) (
    chk 2997 (let! v14 := deref v9 in Ok (DistModifier_beq (distModifier (VisibilityGroup_minVisibility v14)) DM_NONE)) (
    chk 2998 (let! v15 := deref v9 in Ok (Distance_isReported (VisibilityGroup_minVisibility v15))) (
    chk 2999 (let! v16 := deref v9 in Ok (has_value (Distance_distance (VisibilityGroup_minVisibility v16)))) (
    chk 3000 (let! v17 := deref v9 in let! v18 := deref (Distance_distance (VisibilityGroup_minVisibility v17)) in Ok (near v18 (dlit (1) 4) (dlit (1) 200))) (
    chk 3001 (let! v19 := deref v9 in Ok (DistUnit_beq (distUnit (VisibilityGroup_minVisibility v19)) STATUTE_MILES)) (
    chk 3003 (let! v20 := deref v9 in Ok (DistUnit_beq (distUnit (VisibilityGroup_maxVisibility v20)) STATUTE_MILES)) (
    chk 3004 (let! v21 := deref v9 in Ok (Distance_isReported (VisibilityGroup_maxVisibility v21))) (
    chk 3005 (let! v22 := deref v9 in Ok (has_value (Distance_distance (VisibilityGroup_maxVisibility v22)))) (
    chk 3006 (let! v23 := deref v9 in let! v24 := deref (Distance_distance (VisibilityGroup_maxVisibility v23)) in Ok (near v24 (dlit (6) 1) (dlit (1) 200))) (
    chk 3007 (let! v25 := deref v9 in Ok (DistModifier_beq (distModifier (VisibilityGroup_maxVisibility v25)) DM_MORE_THAN)) (
    chk 3009 (let! v26 := deref v9 in let! v27 := (VisibilityGroup_sectorDirections v26) in Ok (N.eqb (N.of_nat (List.length v27)) 4%N)) (
    chk 3010 (let! v28 := deref v9 in let! v29 := (VisibilityGroup_sectorDirections v28) in let! v30 := deref (List.nth_error v29 0%nat) in Ok (Cardinal_beq (Direction_cardinal v30 false) Cd_SW)) (
    chk 3011 (let! v31 := deref v9 in let! v32 := (VisibilityGroup_sectorDirections v31) in let! v33 := deref (List.nth_error v32 1%nat) in Ok (Cardinal_beq (Direction_cardinal v33 false) Cd_W)) (
    chk 3012 (let! v34 := deref v9 in let! v35 := (VisibilityGroup_sectorDirections v34) in let! v36 := deref (List.nth_error v35 2%nat) in Ok (Cardinal_beq (Direction_cardinal v36 false) Cd_NW)) (
    chk 3013 (let! v37 := deref v9 in let! v38 := (VisibilityGroup_sectorDirections v37) in let! v39 := deref (List.nth_error v38 3%nat) in Ok (Cardinal_beq (Direction_cardinal v39 false) Cd_N)) (
    chk 3015 (let! v40 := deref v9 in Ok (ViTrend_beq (vi_trend v40) Vt_NONE)) (
    chk 3016 (let! v41 := deref v9 in Ok (VisibilityGroup_isValid v41)) (
    None)))))))))))))))))))))))))))).

Definition t_VisibilityGroup_parseRmkVisSectorModifierFractionVariableModifierInteger : option N :=
    step 3020 ((VisibilityGroup_parse "VIS" RP_RMK md_default)) (fun v1 => 
    chk 3021 (Ok (has_value v1)) (
    step 3023 (let! v2 := deref v1 in VisibilityGroup_append v2 "SW-N" RP_RMK md_default) (fun p => let v3 := Some (fst p) in let v4 := snd p in 
    chk 3023 (Ok (AppendResult_beq v4 APPENDED)) (
    step 3025 (let! v5 := deref v3 in VisibilityGroup_append v5 "M1/4VP6" RP_RMK md_default) (fun p => let v6 := Some (fst p) in let v7 := snd p in 
    chk 3025 (Ok (AppendResult_beq v7 APPENDED)) (
    step 3027 (let! v8 := deref v6 in VisibilityGroup_append v8 "" RP_RMK md_default) (fun p => let v9 := Some (fst p) in let v10 := snd p in 
    chk 3027 (Ok (AppendResult_beq v10 NOT_APPENDED)) (
    chk 3030 (let! v11 := deref v9 in Ok (ViType_beq (vi_type v11) Vi_VARIABLE_SECTOR)) (
    chk 3031 (let! v12 := deref v9 in Ok (negb (Distance_isReported (VisibilityGroup_visibility v12)))) (
    chk 3032 (let! v13 := deref v9 in Ok (negb (has_value (vi_dir v13)))) (
    chk 3034 (let! v14 := deref v9 in Ok (DistModifier_beq (distModifier (VisibilityGroup_minVisibility v14)) DM_LESS_THAN)) (
    chk 3035 (let! v15 := deref v9 in Ok (Distance_isReported (VisibilityGroup_minVisibility v15))) (
    chk 3036 (let! v16 := deref v9 in Ok (has_value (Distance_distance (VisibilityGroup_minVisibility v16)))) (
    chk 3037 (let! v17 := deref v9 in let! v18 := deref (Distance_distance (VisibilityGroup_minVisibility v17)) in Ok (near v18 (dlit (1) 4) (dlit (1) 200))) (
    chk 3038 (let! v19 := deref v9 in Ok (DistUnit_beq (distUnit (VisibilityGroup_minVisibility v19)) STATUTE_MILES)) (
    chk 3040 (let! v20 := deref v9 in Ok (DistUnit_beq (distUnit (VisibilityGroup_maxVisibility v20)) STATUTE_MILES)) (
    chk 3041 (let! v21 := deref v9 in Ok (Distance_isReported (VisibilityGroup_maxVisibility v21))) (
    chk 3042 (let! v22 := deref v9 in Ok (has_value (Distance_distance (VisibilityGroup_maxVisibility v22)))) (
    chk 3043 (let! v23 := deref v9 in let! v24 := deref (Distance_distance (VisibilityGroup_maxVisibility v23)) in Ok (near v24 (dlit (6) 1) (dlit (1) 200))) (
    chk 3044 (let! v25 := deref v9 in Ok (DistModifier_beq (distModifier (VisibilityGroup_maxVisibility v25)) DM_MORE_THAN)) (
    chk 3046 (let! v26 := deref v9 in let! v27 := (VisibilityGroup_sectorDirections v26) in Ok (N.eqb (N.of_nat (List.length v27)) 4%N)) (
    chk 3047 (let! v28 := deref v9 in let! v29 := (VisibilityGroup_sectorDirections v28) in let! v30 := deref (List.nth_error v29 0%nat) in Ok (Cardinal_beq (Direction_cardinal v30 false) Cd_SW)) (
    chk 3048 (let! v31 := deref v9 in let! v32 := (VisibilityGroup_sectorDirections v31) in let! v33 := deref (List.nth_error v32 1%nat) in Ok (Cardinal_beq (Direction_cardinal v33 false) Cd_W)) (
    chk 3049 (let! v34 := deref v9 in let! v35 := (VisibilityGroup_sectorDirections v34) in let! v36 := deref (List.nth_error v35 2%nat) in Ok (Cardinal_beq (Direction_cardinal v36 false) Cd_NW)) (
    chk 3050 (let! v37 := deref v9 in let! v38 := (VisibilityGroup_sectorDirections v37) in let! v39 := deref (List.nth_error v38 3%nat) in Ok (Cardinal_beq (Direction_cardinal v39 false) Cd_N)) (
    chk 3052 (let! v40 := deref v9 in Ok (ViTrend_beq (vi_trend v40) Vt_NONE)) (
    chk 3053 (let! v41 := deref v9 in Ok (VisibilityGroup_isValid v41)) (
    None)))))))))))))))))))))))))))).

Definition t_VisibilityGroup_parseRmkVisSectorModifierFractionVariableIntegerFraction : option N :=
    step 3057 ((VisibilityGroup_parse "VIS" RP_RMK md_default)) (fun v1 => 
    chk 3058 (Ok (has_value v1)) (
    step 3060 (let! v2 := deref v1 in VisibilityGroup_append v2 "SW-N" RP_RMK md_default) (fun p => let v3 := Some (fst p) in let v4 := snd p in 
    chk 3060 (Ok (AppendResult_beq v4 APPENDED)) (
    step 3062 (let! v5 := deref v3 in VisibilityGroup_append v5 "M1/4V1" RP_RMK md_default) (fun p => let v6 := Some (fst p) in let v7 := snd p in 
    chk 3062 (Ok (AppendResult_beq v7 APPENDED)) (
    step 3064 (let! v8 := deref v6 in VisibilityGroup_append v8 "3/4" RP_RMK md_default) (fun p => let v9 := Some (fst p) in let v10 := snd p in 
    chk 3064 (Ok (AppendResult_beq v10 APPENDED)) (
    step 3066 (let! v11 := deref v9 in VisibilityGroup_append v11 "" RP_RMK md_default) (fun p => let v12 := Some (fst p) in let v13 := snd p in 
    chk 3066 (Ok (AppendResult_beq v13 NOT_APPENDED)) (
    chk 3069 (let! v14 := deref v12 in Ok (ViType_beq (vi_type v14) Vi_VARIABLE_SECTOR)) (
    chk 3070 (let! v15 := deref v12 in Ok (negb (Distance_isReported (VisibilityGroup_visibility v15)))) (
    chk 3071 (let! v16 := deref v12 in Ok (negb (has_value (vi_dir v16)))) (
    chk 3073 (let! v17 := deref v12 in Ok (DistUnit_beq (distUnit (VisibilityGroup_minVisibility v17)) STATUTE_MILES)) (
    chk 3074 (let! v18 := deref v12 in Ok (Distance_isReported (VisibilityGroup_minVisibility v18))) (
    chk 3075 (let! v19 := deref v12 in Ok (has_value (Distance_distance (VisibilityGroup_minVisibility v19)))) (
    chk 3076 (let! v20 := deref v12 in let! v21 := deref (Distance_distance (VisibilityGroup_minVisibility v20)) in Ok (near v21 (dlit (1) 4) (dlit (1) 200))) (
    chk 3077 (let! v22 := deref v12 in Ok (DistModifier_beq (distModifier (VisibilityGroup_minVisibility v22)) DM_LESS_THAN)) (
    chk 3079 (let! v23 := deref v12 in Ok (DistUnit_beq (distUnit (VisibilityGroup_maxVisibility v23)) STATUTE_MILES)) (
    chk 3080 (let! v24 := deref v12 in Ok (Distance_isReported (VisibilityGroup_maxVisibility v24))) (
    chk 3081 (let! v25 := deref v12 in Ok (has_value (Distance_distance (VisibilityGroup_maxVisibility v25)))) (
    chk 3082 (let! v26 := deref v12 in let! v27 := deref (Distance_distance (VisibilityGroup_maxVisibility v26)) in Ok (near v27 (dlit (7) 4) (dlit (1) 200))) (
    chk 3083 (let! v28 := deref v12 in Ok (DistModifier_beq (distModifier (VisibilityGroup_maxVisibility v28)) DM_NONE)) (
    chk 3085 (let! v29 := deref v12 in let! v30 := (VisibilityGroup_sectorDirections v29) in Ok (N.eqb (N.of_nat (List.length v30)) 4%N)) (
    chk 3086 (let! v31 := deref v12 in let! v32 := (VisibilityGroup_sectorDirections v31) in let! v33 := deref (List.nth_error v32 0%nat) in Ok (Cardinal_beq (Direction_cardinal v33 false) Cd_SW)) (
    chk 3087 (let! v34 := deref v12 in let! v35 := (VisibilityGroup_sectorDirections v34) in let! v36 := deref (List.nth_error v35 1%nat) in Ok (Cardinal_beq (Direction_cardinal v36 false) Cd_W)) (
    chk 3088 (let! v37 := deref v12 in let! v38 := (VisibilityGroup_sectorDirections v37) in let! v39 := deref (List.nth_error v38 2%nat) in Ok (Cardinal_beq (Direction_cardinal v39 false) Cd_NW)) (
    chk 3089 (let! v40 := deref v12 in let! v41 := (VisibilityGroup_sectorDirections v40) in let! v42 := deref (List.nth_error v41 3%nat) in Ok (Cardinal_beq (Direction_cardinal v42 false) Cd_N)) (
    chk 3091 (let! v43 := deref v12 in Ok (ViTrend_beq (vi_trend v43) Vt_NONE)) (
    chk 3092 (let! v44 := deref v12 in Ok (VisibilityGroup_isValid v44)) (
    None)))))))))))))))))))))))))))))).

Definition t_VisibilityGroup_parseRmkVisSectorModifierIntegerFractionVariableModifierIntegerFraction : option N :=
    step 3096 ((VisibilityGroup_parse "VIS" RP_RMK md_default)) (fun v1 => 
    chk 3097 (Ok (has_value v1)) (
    step 3099 (let! v2 := deref v1 in VisibilityGroup_append v2 "SW-N" RP_RMK md_default) (fun p => let v3 := Some (fst p) in let v4 := snd p in 
    chk 3099 (Ok (AppendResult_beq v4 APPENDED)) (
    step 3101 (let! v5 := deref v3 in VisibilityGroup_append v5 "M1" RP_RMK md_default) (fun p => let v6 := Some (fst p) in let v7 := snd p in 
    chk 3101 (Ok (AppendResult_beq v7 APPENDED)) (
    step 3103 (let! v8 := deref v6 in VisibilityGroup_append v8 "1/4VP1" RP_RMK md_default) (fun p => let v9 := Some (fst p) in let v10 := snd p in 
    chk 3103 (Ok (AppendResult_beq v10 APPENDED)) (
    step 3105 (let! v11 := deref v9 in VisibilityGroup_append v11 "3/4" RP_RMK md_default) (fun p => let v12 := Some (fst p) in let v13 := snd p in 
    chk 3105 (Ok (AppendResult_beq v13 APPENDED)) (
    step 3107 (let! v14 := deref v12 in VisibilityGroup_append v14 "" RP_RMK md_default) (fun p => let v15 := Some (fst p) in let v16 := snd p in 
    chk 3107 (Ok (AppendResult_beq v16 NOT_APPENDED)) (
    chk 3110 (let! v17 := deref v15 in Ok (ViType_beq (vi_type v17) Vi_VARIABLE_SECTOR)) (
    chk 3111 (let! v18 := deref v15 in Ok (negb (Distance_isReported (VisibilityGroup_visibility v18)))) (
    chk 3112 (let! v19 := deref v15 in Ok (negb (has_value (vi_dir v19)))) (
    chk 3114 (let! v20 := deref v15 in Ok (DistUnit_beq (distUnit (VisibilityGroup_minVisibility v20)) STATUTE_MILES)) (
    chk 3115 (let! v21 := deref v15 in Ok (Distance_isReported (VisibilityGroup_minVisibility v21))) (
    chk 3116 (let! v22 := deref v15 in Ok (has_value (Distance_distance (VisibilityGroup_minVisibility v22)))) (
    chk 3117 (let! v23 := deref v15 in let! v24 := deref (Distance_distance (VisibilityGroup_minVisibility v23)) in Ok (near v24 (dlit (5) 4) (dlit (1) 200))) (
    chk 3118 (let! v25 := deref v15 in Ok (DistModifier_beq (distModifier (VisibilityGroup_minVisibility v25)) DM_LESS_THAN)) (
    chk 3120 (let! v26 := deref v15 in Ok (DistUnit_beq (distUnit (VisibilityGroup_maxVisibility v26)) STATUTE_MILES)) (
    chk 3121 (let! v27 := deref v15 in Ok (Distance_isReported (VisibilityGroup_maxVisibility v27))) (
    chk 3122 (let! v28 := deref v15 in Ok (has_value (Distance_distance (VisibilityGroup_maxVisibility v28)))) (
    chk 3123 (let! v29 := deref v15 in let! v30 := deref (Distance_distance (VisibilityGroup_maxVisibility v29)) in Ok (near v30 (dlit (7) 4) (dlit (1) 200))) (
    chk 3124 (let! v31 := deref v15 in Ok (DistModifier_beq (distModifier (VisibilityGroup_maxVisibility v31)) DM_MORE_THAN)) (
    chk 3126 (let! v32 := deref v15 in let! v33 := (VisibilityGroup_sectorDirections v32) in Ok (N.eqb (N.of_nat (List.length v33)) 4%N)) (
    chk 3127 (let! v34 := deref v15 in let! v35 := (VisibilityGroup_sectorDirections v34) in let! v36 := deref (List.nth_error v35 0%nat) in Ok (Cardinal_beq (Direction_cardinal v36 false) Cd_SW)) (
    chk 3128 (let! v37 := deref v15 in let! v38 := (VisibilityGroup_sectorDirections v37) in let! v39 := deref (List.nth_error v38 1%nat) in Ok (Cardinal_beq (Direction_cardinal v39 false) Cd_W)) (
    chk 3129 (let! v40 := deref v15 in let! v41 := (VisibilityGroup_sectorDirections v40) in let! v42 := deref (List.nth_error v41 2%nat) in Ok (Cardinal_beq (Direction_cardinal v42 false) Cd_NW)) (
    chk 3130 (let! v43 := deref v15 in let! v44 := (VisibilityGroup_sectorDirections v43) in let! v45 := deref (List.nth_error v44 3%nat) in Ok (Cardinal_beq (Direction_cardinal v45 false) Cd_N)) (
    chk 3132 (let! v46 := deref v15 in Ok (ViTrend_beq (vi_trend v46) Vt_NONE)) (
    chk 3133 (let! v47 := deref v15 in Ok (VisibilityGroup_isValid v47)) (
    None)))))))))))))))))))))))))))))))).

Definition t_VisibilityGroup_parseRmkVisSectorNonVariableIntegerFraction : option N :=
    step 3144 ((VisibilityGroup_parse "VIS" RP_RMK md_default)) (fun v1 => 
    chk 3145 (Ok (has_value v1)) (
    step 3147 (let! v2 := deref v1 in VisibilityGroup_append v2 "SW-N" RP_RMK md_default) (fun p => let v3 := Some (fst p) in let v4 := snd p in 
    chk 3147 (Ok (AppendResult_beq v4 APPENDED)) (
    step 3149 (let! v5 := deref v3 in VisibilityGroup_append v5 "1" RP_RMK md_default) (fun p => let v6 := Some (fst p) in let v7 := snd p in 
    chk 3149 (Ok (AppendResult_beq v7 APPENDED)) (
    step 3151 (let! v8 := deref v6 in VisibilityGroup_append v8 "3/4" RP_RMK md_default) (fun p => let v9 := Some (fst p) in let v10 := snd p in 
    chk 3151 (Ok (AppendResult_beq v10 APPENDED)) (
    step 3153 (let! v11 := deref v9 in VisibilityGroup_append v11 "" RP_RMK md_default) (fun p => let v12 := Some (fst p) in let v13 := snd p in 
    chk 3153 (Ok (AppendResult_beq v13 NOT_APPENDED)) (
    chk 3156 (let! v14 := deref v12 in Ok (ViType_beq (vi_type v14) Vi_SECTOR)) (
    chk 3157 (let! v15 := deref v12 in Ok (negb (has_value (vi_dir v15)))) (
    chk 3158 (let! v16 := deref v12 in Ok (negb (has_value (vi_rw v16)))) (
    chk 3160 (let! v17 := deref v12 in Ok (DistModifier_beq (distModifier (VisibilityGroup_visibility v17)) DM_NONE)) (
    chk 3161 (let! v18 := deref v12 in Ok (Distance_isReported (VisibilityGroup_visibility v18))) (
    chk 3162 (let! v19 := deref v12 in Ok (has_value (Distance_distance (VisibilityGroup_visibility v19)))) (
    chk 3163 (let! v20 := deref v12 in let! v21 := deref (Distance_distance (VisibilityGroup_visibility v20)) in Ok (near v21 (dlit (7) 4) (dlit (1) 200))) (
    chk 3164 (let! v22 := deref v12 in Ok (DistUnit_beq (distUnit (VisibilityGroup_visibility v22)) STATUTE_MILES)) (
    chk 3166 (let! v23 := deref v12 in Ok (negb (Distance_isReported (VisibilityGroup_minVisibility v23)))) (
    chk 3167 (let! v24 := deref v12 in Ok (negb (Distance_isReported (VisibilityGroup_maxVisibility v24)))) (
    chk 3169 (let! v25 := deref v12 in let! v26 := (VisibilityGroup_sectorDirections v25) in Ok (N.eqb (N.of_nat (List.length v26)) 4%N)) (
    chk 3170 (let! v27 := deref v12 in let! v28 := (VisibilityGroup_sectorDirections v27) in let! v29 := deref (List.nth_error v28 0%nat) in Ok (Cardinal_beq (Direction_cardinal v29 false) Cd_SW)) (
    chk 3171 (let! v30 := deref v12 in let! v31 := (VisibilityGroup_sectorDirections v30) in let! v32 := deref (List.nth_error v31 1%nat) in Ok (Cardinal_beq (Direction_cardinal v32 false) Cd_W)) (
    chk 3172 (let! v33 := deref v12 in let! v34 := (VisibilityGroup_sectorDirections v33) in let! v35 := deref (List.nth_error v34 2%nat) in Ok (Cardinal_beq (Direction_cardinal v35 false) Cd_NW)) (
    chk 3173 (let! v36 := deref v12 in let! v37 := (VisibilityGroup_sectorDirections v36) in let! v38 := deref (List.nth_error v37 3%nat) in Ok (Cardinal_beq (Direction_cardinal v38 false) Cd_N)) (
    chk 3175 (let! v39 := deref v12 in Ok (ViTrend_beq (vi_trend v39) Vt_NONE)) (
    chk 3176 (let! v40 := deref v12 in Ok (VisibilityGroup_isValid v40)) (
    None))))))))))))))))))))))))))).

Definition t_VisibilityGroup_parseRmkVisSectorNonVariableInteger : option N :=
    step 3180 ((VisibilityGroup_parse "VIS" RP_RMK md_default)) (fun v1 => 
    chk 3181 (Ok (has_value v1)) (
    step 3183 (let! v2 := deref v1 in VisibilityGroup_append v2 "SW-N" RP_RMK md_default) (fun p => let v3 := Some (fst p) in let v4 := snd p in 
    chk 3183 (Ok (AppendResult_beq v4 APPENDED)) (
    step 3185 (let! v5 := deref v3 in VisibilityGroup_append v5 "2" RP_RMK md_default) (fun p => let v6 := Some (fst p) in let v7 := snd p in 
    chk 3185 (Ok (AppendResult_beq v7 APPENDED)) (
    step 3187 (let! v8 := deref v6 in VisibilityGroup_append v8 "" RP_RMK md_default) (fun p => let v9 := Some (fst p) in let v10 := snd p in 
    chk 3187 (Ok (AppendResult_beq v10 NOT_APPENDED)) (
    chk 3190 (let! v11 := deref v9 in Ok (ViType_beq (vi_type v11) Vi_SECTOR)) (
    chk 3191 (let! v12 := deref v9 in Ok (negb (has_value (vi_dir v12)))) (
    chk 3192 (let! v13 := deref v9 in Ok (negb (has_value (vi_rw v13)))) (
    chk 3194 (let! v14 := deref v9 in Ok (DistModifier_beq (distModifier (VisibilityGroup_visibility v14)) DM_NONE)) (
    chk 3195 (let! v15 := deref v9 in Ok (Distance_isReported (VisibilityGroup_visibility v15))) (
    chk 3196 (let! v16 := deref v9 in Ok (has_value (Distance_distance (VisibilityGroup_visibility v16)))) (
    chk 3197 (let! v17 := deref v9 in let! v18 := deref (Distance_distance (VisibilityGroup_visibility v17)) in Ok (near v18 (dlit (2) 1) (dlit (1) 200))) (
    chk 3198 (let! v19 := deref v9 in Ok (DistUnit_beq (distUnit (VisibilityGroup_visibility v19)) STATUTE_MILES)) (
    chk 3200 (let! v20 := deref v9 in Ok (negb (Distance_isReported (VisibilityGroup_minVisibility v20)))) (
    chk 3201 (let! v21 := deref v9 in Ok (negb (Distance_isReported (VisibilityGroup_maxVisibility v21)))) (
    chk 3203 (let! v22 := deref v9 in let! v23 := (VisibilityGroup_sectorDirections v22) in Ok (N.eqb (N.of_nat (List.length v23)) 4%N)) (
    chk 3204 (let! v24 := deref v9 in let! v25 := (VisibilityGroup_sectorDirections v24) in let! v26 := deref (List.nth_error v25 0%nat) in Ok (Cardinal_beq (Direction_cardinal v26 false) Cd_SW)) (
    chk 3205 (let! v27 := deref v9 in let! v28 := (VisibilityGroup_sectorDirections v27) in let! v29 := deref (List.nth_error v28 1%nat) in Ok (Cardinal_beq (Direction_cardinal v29 false) Cd_W)) (
    chk 3206 (let! v30 := deref v9 in let! v31 := (VisibilityGroup_sectorDirections v30) in let! v32 := deref (List.nth_error v31 2%nat) in Ok (Cardinal_beq (Direction_cardinal v32 false) Cd_NW)) (
    chk 3207 (let! v33 := deref v9 in let! v34 := (VisibilityGroup_sectorDirections v33) in let! v35 := deref (List.nth_error v34 3%nat) in Ok (Cardinal_beq (Direction_cardinal v35 false) Cd_N)) (
    chk 3209 (let! v36 := deref v9 in Ok (ViTrend_beq (vi_trend v36) Vt_NONE)) (
    chk 3210 (let! v37 := deref v9 in Ok (VisibilityGroup_isValid v37)) (
    None))))))))))))))))))))))))).

Definition t_VisibilityGroup_parseRmkVisSectorNonVariableFraction : option N :=
    step 3214 ((VisibilityGroup_parse "VIS" RP_RMK md_default)) (fun v1 => 
    chk 3215 (Ok (has_value v1)) (
    step 3217 (let! v2 := deref v1 in VisibilityGroup_append v2 "SW-N" RP_RMK md_default) (fun p => let v3 := Some (fst p) in let v4 := snd p in 
    chk 3217 (Ok (AppendResult_beq v4 APPENDED)) (
    step 3219 (let! v5 := deref v3 in VisibilityGroup_append v5 "3/4" RP_RMK md_default) (fun p => let v6 := Some (fst p) in let v7 := snd p in 
    chk 3219 (Ok (AppendResult_beq v7 APPENDED)) (
    step 3221 (let! v8 := deref v6 in VisibilityGroup_append v8 "" RP_RMK md_default) (fun p => let v9 := Some (fst p) in let v10 := snd p in 
    chk 3221 (Ok (AppendResult_beq v10 NOT_APPENDED)) (
    chk 3224 (let! v11 := deref v9 in Ok (ViType_beq (vi_type v11) Vi_SECTOR)) (
    chk 3225 (let! v12 := deref v9 in Ok (negb (has_value (vi_dir v12)))) (
    chk 3226 (let! v13 := deref v9 in Ok (negb (has_value (vi_rw v13)))) (
    chk 3228 (let! v14 := deref v9 in Ok (DistModifier_beq (distModifier (VisibilityGroup_visibility v14)) DM_NONE)) (
    chk 3229 (let! v15 := deref v9 in Ok (Distance_isReported (VisibilityGroup_visibility v15))) (
    chk 3230 (let! v16 := deref v9 in Ok (has_value (Distance_distance (VisibilityGroup_visibility v16)))) (
    chk 3231 (let! v17 := deref v9 in let! v18 := deref (Distance_distance (VisibilityGroup_visibility v17)) in Ok (near v18 (dlit (3) 4) (dlit (1) 200))) (
    chk 3232 (let! v19 := deref v9 in Ok (DistUnit_beq (distUnit (VisibilityGroup_visibility v19)) STATUTE_MILES)) (
    chk 3234 (let! v20 := deref v9 in Ok (negb (Distance_isReported (VisibilityGroup_minVisibility v20)))) (
    chk 3235 (let! v21 := deref v9 in Ok (negb (Distance_isReported (VisibilityGroup_maxVisibility v21)))) (
    chk 3237 (let! v22 := deref v9 in let! v23 := (VisibilityGroup_sectorDirections v22) in Ok (N.eqb (N.of_nat (List.length v23)) 4%N)) (
    chk 3238 (let! v24 := deref v9 in let! v25 := (VisibilityGroup_sectorDirections v24) in let! v26 := deref (List.nth_error v25 0%nat) in Ok (Cardinal_beq (Direction_cardinal v26 false) Cd_SW)) (
    chk 3239 (let! v27 := deref v9 in let! v28 := (VisibilityGroup_sectorDirections v27) in let! v29 := deref (List.nth_error v28 1%nat) in Ok (Cardinal_beq (Direction_cardinal v29 false) Cd_W)) (
    chk 3240 (let! v30 := deref v9 in let! v31 := (VisibilityGroup_sectorDirections v30) in let! v32 := deref (List.nth_error v31 2%nat) in Ok (Cardinal_beq (Direction_cardinal v32 false) Cd_NW)) (
    chk 3241 (let! v33 := deref v9 in let! v34 := (VisibilityGroup_sectorDirections v33) in let! v35 := deref (List.nth_error v34 3%nat) in Ok (Cardinal_beq (Direction_cardinal v35 false) Cd_N)) (
    chk 3243 (let! v36 := deref v9 in Ok (ViTrend_beq (vi_trend v36) Vt_NONE)) (
    chk 3244 (let! v37 := deref v9 in Ok (VisibilityGroup_isValid v37)) (
    None))))))))))))))))))))))))).

Definition t_VisibilityGroup_parseRmkSectorAppendToCompleteNonVarVisGroups : option N :=
    step 3248 ((VisibilityGroup_parse "VIS" RP_RMK md_default)) (fun v1 => 
    chk 3249 (Ok (has_value v1)) (
    step 3250 (let! v2 := deref v1 in VisibilityGroup_append v2 "SW-N" RP_RMK md_default) (fun p => let v3 := Some (fst p) in let v4 := snd p in 
    chk 3250 (Ok (AppendResult_beq v4 APPENDED)) (
    step 3251 (let! v5 := deref v3 in VisibilityGroup_append v5 "3" RP_RMK md_default) (fun p => let v6 := Some (fst p) in let v7 := snd p in 
    chk 3251 (Ok (AppendResult_beq v7 APPENDED)) (
    step 3252 (let! v8 := deref v6 in VisibilityGroup_append v8 "NW" RP_RMK md_default) (fun p => let v9 := Some (fst p) in let v10 := snd p in 
    chk 3252 (Ok (AppendResult_beq v10 NOT_APPENDED)) (
    step 3253 (let! v11 := deref v9 in VisibilityGroup_append v11 "1V3" RP_RMK md_default) (fun p => let v12 := Some (fst p) in let v13 := snd p in 
    chk 3253 (Ok (AppendResult_beq v13 NOT_APPENDED)) (
    step 3254 (let! v14 := deref v12 in VisibilityGroup_append v14 "1/2V3" RP_RMK md_default) (fun p => let v15 := Some (fst p) in let v16 := snd p in 
    chk 3254 (Ok (AppendResult_beq v16 NOT_APPENDED)) (
    step 3255 (let! v17 := deref v15 in VisibilityGroup_append v17 "2" RP_RMK md_default) (fun p => let v18 := Some (fst p) in let v19 := snd p in 
    chk 3255 (Ok (AppendResult_beq v19 NOT_APPENDED)) (
    step 3257 ((VisibilityGroup_parse "VIS" RP_RMK md_default)) (fun v20 => 
    chk 3258 (Ok (has_value v20)) (
    step 3259 (let! v21 := deref v20 in VisibilityGroup_append v21 "SW-N" RP_RMK md_default) (fun p => let v22 := Some (fst p) in let v23 := snd p in 
    chk 3259 (Ok (AppendResult_beq v23 APPENDED)) (
    step 3260 (let! v24 := deref v22 in VisibilityGroup_append v24 "1/2" RP_RMK md_default) (fun p => let v25 := Some (fst p) in let v26 := snd p in 
    chk 3260 (Ok (AppendResult_beq v26 APPENDED)) (
    step 3261 (let! v27 := deref v25 in VisibilityGroup_append v27 "NW" RP_RMK md_default) (fun p => let v28 := Some (fst p) in let v29 := snd p in 
    chk 3261 (Ok (AppendResult_beq v29 NOT_APPENDED)) (
    step 3262 (let! v30 := deref v28 in VisibilityGroup_append v30 "1V3" RP_RMK md_default) (fun p => let v31 := Some (fst p) in let v32 := snd p in 
    chk 3262 (Ok (AppendResult_beq v32 NOT_APPENDED)) (
    step 3263 (let! v33 := deref v31 in VisibilityGroup_append v33 "1/2V3" RP_RMK md_default) (fun p => let v34 := Some (fst p) in let v35 := snd p in 
    chk 3263 (Ok (AppendResult_beq v35 NOT_APPENDED)) (
    step 3264 (let! v36 := deref v34 in VisibilityGroup_append v36 "2" RP_RMK md_default) (fun p => let v37 := Some (fst p) in let v38 := snd p in 
    chk 3264 (Ok (AppendResult_beq v38 NOT_APPENDED)) (
    None)))))))))))))))))))))))))))).

Definition t_VisibilityGroup_parseRmkVisSectorNonVariableModifierIntegerFraction : option N :=
    step 3268 ((VisibilityGroup_parse "VIS" RP_RMK md_default)) (fun v1 => 
    chk 3269 (Ok (has_value v1)) (
    step 3271 (let! v2 := deref v1 in VisibilityGroup_append v2 "SW-N" RP_RMK md_default) (fun p => let v3 := Some (fst p) in let v4 := snd p in 
    chk 3271 (Ok (AppendResult_beq v4 APPENDED)) (
    step 3273 (let! v5 := deref v3 in VisibilityGroup_append v5 "M1" RP_RMK md_default) (fun p => let v6 := Some (fst p) in let v7 := snd p in 
    chk 3273 (Ok (AppendResult_beq v7 APPENDED)) (
    step 3275 (let! v8 := deref v6 in VisibilityGroup_append v8 "1/4" RP_RMK md_default) (fun p => let v9 := Some (fst p) in let v10 := snd p in 
    chk 3275 (Ok (AppendResult_beq v10 APPENDED)) (
    step 3277 (let! v11 := deref v9 in VisibilityGroup_append v11 "" RP_RMK md_default) (fun p => let v12 := Some (fst p) in let v13 := snd p in 
    chk 3277 (Ok (AppendResult_beq v13 NOT_APPENDED)) (
    chk 3280 (let! v14 := deref v12 in Ok (ViType_beq (vi_type v14) Vi_SECTOR)) (
    chk 3281 (let! v15 := deref v12 in Ok (negb (has_value (vi_dir v15)))) (
    chk 3282 (let! v16 := deref v12 in Ok (negb (has_value (vi_rw v16)))) (
    chk 3284 (let! v17 := deref v12 in Ok (DistModifier_beq (distModifier (VisibilityGroup_visibility v17)) DM_LESS_THAN)) (
    chk 3285 (let! v18 := deref v12 in Ok (Distance_isReported (VisibilityGroup_visibility v18))) (
    chk 3286 (let! v19 := deref v12 in Ok (has_value (Distance_distance (VisibilityGroup_visibility v19)))) (
    chk 3287 (let! v20 := deref v12 in let! v21 := deref (Distance_distance (VisibilityGroup_visibility v20)) in Ok (near v21 (dlit (5) 4) (dlit (1) 200))) (
    chk 3288 (let! v22 := deref v12 in Ok (DistUnit_beq (distUnit (VisibilityGroup_visibility v22)) STATUTE_MILES)) (
    chk 3290 (let! v23 := deref v12 in Ok (negb (Distance_isReported (VisibilityGroup_minVisibility v23)))) (
    chk 3291 (let! v24 := deref v12 in Ok (negb (Distance_isReported (VisibilityGroup_maxVisibility v24)))) (
    chk 3293 (let! v25 := deref v12 in let! v26 := (VisibilityGroup_sectorDirections v25) in Ok (N.eqb (N.of_nat (List.length v26)) 4%N)) (
    chk 3294 (let! v27 := deref v12 in let! v28 := (VisibilityGroup_sectorDirections v27) in let! v29 := deref (List.nth_error v28 0%nat) in Ok (Cardinal_beq (Direction_cardinal v29 false) Cd_SW)) (
    chk 3295 (let! v30 := deref v12 in let! v31 := (VisibilityGroup_sectorDirections v30) in let! v32 := deref (List.nth_error v31 1%nat) in Ok (Cardinal_beq (Direction_cardinal v32 false) Cd_W)) (
    chk 3296 (let! v33 := deref v12 in let! v34 := (VisibilityGroup_sectorDirections v33) in let! v35 := deref (List.nth_error v34 2%nat) in Ok (Cardinal_beq (Direction_cardinal v35 false) Cd_NW)) (
    chk 3297 (let! v36 := deref v12 in let! v37 := (VisibilityGroup_sectorDirections v36) in let! v38 := deref (List.nth_error v37 3%nat) in Ok (Cardinal_beq (Direction_cardinal v38 false) Cd_N)) (
    chk 3299 (let! v39 := deref v12 in Ok (ViTrend_beq (vi_trend v39) Vt_NONE)) (
    chk 3300 (let! v40 := deref v12 in Ok (VisibilityGroup_isValid v40)) (
    None))))))))))))))))))))))))))).

Definition t_VisibilityGroup_parseRmkVisSectorNonVariableModifierInteger : option N :=
    step 3304 ((VisibilityGroup_parse "VIS" RP_RMK md_default)) (fun v1 => 
    chk 3305 (Ok (has_value v1)) (
    step 3307 (let! v2 := deref v1 in VisibilityGroup_append v2 "SW-N" RP_RMK md_default) (fun p => let v3 := Some (fst p) in let v4 := snd p in 
    chk 3307 (Ok (AppendResult_beq v4 APPENDED)) (
    step 3309 (let! v5 := deref v3 in VisibilityGroup_append v5 "P6" RP_RMK md_default) (fun p => let v6 := Some (fst p) in let v7 := snd p in 
    chk 3309 (Ok (AppendResult_beq v7 APPENDED)) (
    step 3311 (let! v8 := deref v6 in VisibilityGroup_append v8 "" RP_RMK md_default) (fun p => let v9 := Some (fst p) in let v10 := snd p in 
    chk 3311 (Ok (AppendResult_beq v10 NOT_APPENDED)) (
    chk 3314 (let! v11 := deref v9 in Ok (ViType_beq (vi_type v11) Vi_SECTOR)) (
    chk 3315 (let! v12 := deref v9 in Ok (negb (has_value (vi_dir v12)))) (
    chk 3316 (let! v13 := deref v9 in Ok (negb (has_value (vi_rw v13)))) (
    chk 3318 (let! v14 := deref v9 in Ok (DistModifier_beq (distModifier (VisibilityGroup_visibility v14)) DM_MORE_THAN)) (
    chk 3319 (let! v15 := deref v9 in Ok (Distance_isReported (VisibilityGroup_visibility v15))) (
    chk 3320 (let! v16 := deref v9 in Ok (has_value (Distance_distance (VisibilityGroup_visibility v16)))) (
    chk 3321 (let! v17 := deref v9 in let! v18 := deref (Distance_distance (VisibilityGroup_visibility v17)) in Ok (near v18 (dlit (6) 1) (dlit (1) 200))) (
    chk 3322 (let! v19 := deref v9 in Ok (DistUnit_beq (distUnit (VisibilityGroup_visibility v19)) STATUTE_MILES)) (
    chk 3324 (let! v20 := deref v9 in Ok (negb (Distance_isReported (VisibilityGroup_minVisibility v20)))) (
    chk 3325 (let! v21 := deref v9 in Ok (negb (Distance_isReported (VisibilityGroup_maxVisibility v21)))) (
    chk 3327 (let! v22 := deref v9 in let! v23 := (VisibilityGroup_sectorDirections v22) in Ok (N.eqb (N.of_nat (List.length v23)) 4%N)) (
    chk 3328 (let! v24 := deref v9 in let! v25 := (VisibilityGroup_sectorDirections v24) in let! v26 := deref (List.nth_error v25 0%nat) in Ok (Cardinal_beq (Direction_cardinal v26 false) Cd_SW)) (
    chk 3329 (let! v27 := deref v9 in let! v28 := (VisibilityGroup_sectorDirections v27) in let! v29 := deref (List.nth_error v28 1%nat) in Ok (Cardinal_beq (Direction_cardinal v29 false) Cd_W)) (
    chk 3330 (let! v30 := deref v9 in let! v31 := (VisibilityGroup_sectorDirections v30) in let! v32 := deref (List.nth_error v31 2%nat) in Ok (Cardinal_beq (Direction_cardinal v32 false) Cd_NW)) (
    chk 3331 (let! v33 := deref v9 in let! v34 := (VisibilityGroup_sectorDirections v33) in let! v35 := deref (List.nth_error v34 3%nat) in Ok (Cardinal_beq (Direction_cardinal v35 false) Cd_N)) (
    chk 3333 (let! v36 := deref v9 in Ok (ViTrend_beq (vi_trend v36) Vt_NONE)) (
    chk 3334 (let! v37 := deref v9 in Ok (VisibilityGroup_isValid v37)) (
    None))))))))))))))))))))))))).

Definition t_VisibilityGroup_parseRmkVisSectorNonVariableModifierFraction : option N :=
    step 3338 ((VisibilityGroup_parse "VIS" RP_RMK md_default)) (fun v1 => 
    chk 3339 (Ok (has_value v1)) (
    step 3341 (let! v2 := deref v1 in VisibilityGroup_append v2 "SW-N" RP_RMK md_default) (fun p => let v3 := Some (fst p) in let v4 := snd p in 
    chk 3341 (Ok (AppendResult_beq v4 APPENDED)) (
    step 3343 (let! v5 := deref v3 in VisibilityGroup_append v5 "M1/16" RP_RMK md_default) (fun p => let v6 := Some (fst p) in let v7 := snd p in 
    chk 3343 (Ok (AppendResult_beq v7 APPENDED)) (
    step 3345 (let! v8 := deref v6 in VisibilityGroup_append v8 "" RP_RMK md_default) (fun p => let v9 := Some (fst p) in let v10 := snd p in 
    chk 3345 (Ok (AppendResult_beq v10 NOT_APPENDED)) (
    chk 3348 (let! v11 := deref v9 in Ok (ViType_beq (vi_type v11) Vi_SECTOR)) (
    chk 3349 (let! v12 := deref v9 in Ok (negb (has_value (vi_dir v12)))) (
    chk 3350 (let! v13 := deref v9 in Ok (negb (has_value (vi_rw v13)))) (
    chk 3352 (let! v14 := deref v9 in Ok (DistModifier_beq (distModifier (VisibilityGroup_visibility v14)) DM_LESS_THAN)) (
    chk 3353 (let! v15 := deref v9 in Ok (Distance_isReported (VisibilityGroup_visibility v15))) (
    chk 3354 (let! v16 := deref v9 in Ok (has_value (Distance_distance (VisibilityGroup_visibility v16)))) (
    chk 3355 (let! v17 := deref v9 in let! v18 := deref (Distance_distance (VisibilityGroup_visibility v17)) in Ok (near v18 (dlit (1) 16) (dlit (1) 200))) (
    chk 3356 (let! v19 := deref v9 in Ok (DistUnit_beq (distUnit (VisibilityGroup_visibility v19)) STATUTE_MILES)) (
    chk 3358 (let! v20 := deref v9 in Ok (negb (Distance_isReported (VisibilityGroup_minVisibility v20)))) (
    chk 3359 (let! v21 := deref v9 in Ok (negb (Distance_isReported (VisibilityGroup_maxVisibility v21)))) (
    chk 3361 (let! v22 := deref v9 in let! v23 := (VisibilityGroup_sectorDirections v22) in Ok (N.eqb (N.of_nat (List.length v23)) 4%N)) (
    chk 3362 (let! v24 := deref v9 in let! v25 := (VisibilityGroup_sectorDirections v24) in let! v26 := deref (List.nth_error v25 0%nat) in Ok (Cardinal_beq (Direction_cardinal v26 false) Cd_SW)) (
    chk 3363 (let! v27 := deref v9 in let! v28 := (VisibilityGroup_sectorDirections v27) in let! v29 := deref (List.nth_error v28 1%nat) in Ok (Cardinal_beq (Direction_cardinal v29 false) Cd_W)) (
    chk 3364 (let! v30 := deref v9 in let! v31 := (VisibilityGroup_sectorDirections v30) in let! v32 := deref (List.nth_error v31 2%nat) in Ok (Cardinal_beq (Direction_cardinal v32 false) Cd_NW)) (
    chk 3365 (let! v33 := deref v9 in let! v34 := (VisibilityGroup_sectorDirections v33) in let! v35 := deref (List.nth_error v34 3%nat) in Ok (Cardinal_beq (Direction_cardinal v35 false) Cd_N)) (
    chk 3367 (let! v36 := deref v9 in Ok (ViTrend_beq (vi_trend v36) Vt_NONE)) (
    chk 3368 (let! v37 := deref v9 in Ok (VisibilityGroup_isValid v37)) (
    None))))))))))))))))))))))))).

Definition t_VisibilityGroup_parseRmkVisDirectionalVariableAppendRunway : option N :=
    step 3379 ((VisibilityGroup_parse "VIS" RP_RMK md_default)) (fun v1 => 
    chk 3380 (Ok (has_value v1)) (
    step 3381 (let! v2 := deref v1 in VisibilityGroup_append v2 "SE" RP_RMK md_default) (fun p => let v3 := Some (fst p) in let v4 := snd p in 
    chk 3381 (Ok (AppendResult_beq v4 APPENDED)) (
    step 3383 (let! v5 := deref v3 in VisibilityGroup_append v5 "1V3" RP_RMK md_default) (fun p => let v6 := Some (fst p) in let v7 := snd p in 
    chk 3383 (Ok (AppendResult_beq v7 APPENDED)) (
    step 3385 (let! v8 := deref v6 in VisibilityGroup_append v8 "R18" RP_RMK md_default) (fun p => let v9 := Some (fst p) in let v10 := snd p in 
    chk 3385 (Ok (AppendResult_beq v10 NOT_APPENDED)) (
    step 3388 ((VisibilityGroup_parse "VIS" RP_RMK md_default)) (fun v11 => 
    chk 3389 (Ok (has_value v11)) (
    step 3390 (let! v12 := deref v11 in VisibilityGroup_append v12 "SE" RP_RMK md_default) (fun p => let v13 := Some (fst p) in let v14 := snd p in 
    chk 3390 (Ok (AppendResult_beq v14 APPENDED)) (
    step 3392 (let! v15 := deref v13 in VisibilityGroup_append v15 "1/2V3" RP_RMK md_default) (fun p => let v16 := Some (fst p) in let v17 := snd p in 
    chk 3392 (Ok (AppendResult_beq v17 APPENDED)) (
    step 3394 (let! v18 := deref v16 in VisibilityGroup_append v18 "RWY18" RP_RMK md_default) (fun p => let v19 := Some (fst p) in let v20 := snd p in 
    chk 3394 (Ok (AppendResult_beq v20 NOT_APPENDED)) (
    None)))))))))))))))).

Definition t_VisibilityGroup_parseRmkVisDirectionalNonVariableAppendRunway : option N :=
    step 3399 ((VisibilityGroup_parse "VIS" RP_RMK md_default)) (fun v1 => 
    chk 3400 (Ok (has_value v1)) (
    step 3401 (let! v2 := deref v1 in VisibilityGroup_append v2 "SE" RP_RMK md_default) (fun p => let v3 := Some (fst p) in let v4 := snd p in 
    chk 3401 (Ok (AppendResult_beq v4 APPENDED)) (
    step 3403 (let! v5 := deref v3 in VisibilityGroup_append v5 "1/2" RP_RMK md_default) (fun p => let v6 := Some (fst p) in let v7 := snd p in 
    chk 3403 (Ok (AppendResult_beq v7 APPENDED)) (
    step 3405 (let! v8 := deref v6 in VisibilityGroup_append v8 "R18" RP_RMK md_default) (fun p => let v9 := Some (fst p) in let v10 := snd p in 
    chk 3405 (Ok (AppendResult_beq v10 NOT_APPENDED)) (
    step 3408 ((VisibilityGroup_parse "VIS" RP_RMK md_default)) (fun v11 => 
    chk 3409 (Ok (has_value v11)) (
    step 3410 (let! v12 := deref v11 in VisibilityGroup_append v12 "SE" RP_RMK md_default) (fun p => let v13 := Some (fst p) in let v14 := snd p in 
    chk 3410 (Ok (AppendResult_beq v14 APPENDED)) (
    step 3412 (let! v15 := deref v13 in VisibilityGroup_append v15 "3" RP_RMK md_default) (fun p => let v16 := Some (fst p) in let v17 := snd p in 
    chk 3412 (Ok (AppendResult_beq v17 APPENDED)) (
    step 3414 (let! v18 := deref v16 in VisibilityGroup_append v18 "RWY18" RP_RMK md_default) (fun p => let v19 := Some (fst p) in let v20 := snd p in 
    chk 3414 (Ok (AppendResult_beq v20 NOT_APPENDED)) (
    None)))))))))))))))).

Definition t_VisibilityGroup_parseRmkAppendOtherToVisDirection : option N :=
    step 3419 ((VisibilityGroup_parse "VIS" RP_RMK md_default)) (fun v1 => 
    chk 3420 (Ok (has_value v1)) (
    step 3421 (let! v2 := deref v1 in VisibilityGroup_append v2 "W" RP_RMK md_default) (fun p => let v3 := Some (fst p) in let v4 := snd p in 
    chk 3421 (Ok (AppendResult_beq v4 APPENDED)) (
    step 3422 (let! v5 := deref v3 in VisibilityGroup_append v5 "100" RP_RMK md_default) (fun p => let v6 := Some (fst p) in let v7 := snd p in 
    chk 3422 (Ok (AppendResult_beq v7 GROUP_INVALIDATED)) (
    step 3425 ((VisibilityGroup_parse "VIS" RP_RMK md_default)) (fun v8 => 
    chk 3426 (Ok (has_value v8)) (
    step 3427 (let! v9 := deref v8 in VisibilityGroup_append v9 "W" RP_RMK md_default) (fun p => let v10 := Some (fst p) in let v11 := snd p in 
    chk 3427 (Ok (AppendResult_beq v11 APPENDED)) (
    step 3428 (let! v12 := deref v10 in VisibilityGroup_append v12 "1/8SM" RP_RMK md_default) (fun p => let v13 := Some (fst p) in let v14 := snd p in 
    chk 3428 (Ok (AppendResult_beq v14 GROUP_INVALIDATED)) (
    step 3431 ((VisibilityGroup_parse "VIS" RP_RMK md_default)) (fun v15 => 
    chk 3432 (Ok (has_value v15)) (
    step 3433 (let! v16 := deref v15 in VisibilityGroup_append v16 "W" RP_RMK md_default) (fun p => let v17 := Some (fst p) in let v18 := snd p in 
    chk 3433 (Ok (AppendResult_beq v18 APPENDED)) (
    step 3434 (let! v19 := deref v17 in VisibilityGroup_append v19 "1500" RP_RMK md_default) (fun p => let v20 := Some (fst p) in let v21 := snd p in 
    chk 3434 (Ok (AppendResult_beq v21 GROUP_INVALIDATED)) (
    step 3437 ((VisibilityGroup_parse "VIS" RP_RMK md_default)) (fun v22 => 
    chk 3438 (Ok (has_value v22)) (
    step 3439 (let! v23 := deref v22 in VisibilityGroup_append v23 "W" RP_RMK md_default) (fun p => let v24 := Some (fst p) in let v25 := snd p in 
    chk 3439 (Ok (AppendResult_beq v25 APPENDED)) (
    step 3440 (let! v26 := deref v24 in VisibilityGroup_append v26 "////" RP_RMK md_default) (fun p => let v27 := Some (fst p) in let v28 := snd p in 
    chk 3440 (Ok (AppendResult_beq v28 GROUP_INVALIDATED)) (
    step 3443 ((VisibilityGroup_parse "VIS" RP_RMK md_default)) (fun v29 => 
    chk 3444 (Ok (has_value v29)) (
    step 3445 (let! v30 := deref v29 in VisibilityGroup_append v30 "W" RP_RMK md_default) (fun p => let v31 := Some (fst p) in let v32 := snd p in 
    chk 3445 (Ok (AppendResult_beq v32 APPENDED)) (
    step 3446 (let! v33 := deref v31 in VisibilityGroup_append v33 "////SM" RP_RMK md_default) (fun p => let v34 := Some (fst p) in let v35 := snd p in 
    chk 3446 (Ok (AppendResult_beq v35 GROUP_INVALIDATED)) (
    None)))))))))))))))))))))))))))))).

Definition t_VisibilityGroup_parseRmkAppendOtherToVisDirectionInteger : option N :=
    step 3451 ((VisibilityGroup_parse "VIS" RP_RMK md_default)) (fun v1 => 
    chk 3452 (Ok (has_value v1)) (
    step 3453 (let! v2 := deref v1 in VisibilityGroup_append v2 "W" RP_RMK md_default) (fun p => let v3 := Some (fst p) in let v4 := snd p in 
    chk 3453 (Ok (AppendResult_beq v4 APPENDED)) (
    step 3454 (let! v5 := deref v3 in VisibilityGroup_append v5 "1" RP_RMK md_default) (fun p => let v6 := Some (fst p) in let v7 := snd p in 
    chk 3454 (Ok (AppendResult_beq v7 APPENDED)) (
    step 3455 (let! v8 := deref v6 in VisibilityGroup_append v8 "100" RP_RMK md_default) (fun p => let v9 := Some (fst p) in let v10 := snd p in 
    chk 3455 (Ok (AppendResult_beq v10 NOT_APPENDED)) (
    step 3458 ((VisibilityGroup_parse "VIS" RP_RMK md_default)) (fun v11 => 
    chk 3459 (Ok (has_value v11)) (
    step 3460 (let! v12 := deref v11 in VisibilityGroup_append v12 "W" RP_RMK md_default) (fun p => let v13 := Some (fst p) in let v14 := snd p in 
    chk 3460 (Ok (AppendResult_beq v14 APPENDED)) (
    step 3461 (let! v15 := deref v13 in VisibilityGroup_append v15 "1" RP_RMK md_default) (fun p => let v16 := Some (fst p) in let v17 := snd p in 
    chk 3461 (Ok (AppendResult_beq v17 APPENDED)) (
    step 3462 (let! v18 := deref v16 in VisibilityGroup_append v18 "1/8SM" RP_RMK md_default) (fun p => let v19 := Some (fst p) in let v20 := snd p in 
    chk 3462 (Ok (AppendResult_beq v20 NOT_APPENDED)) (
    step 3465 ((VisibilityGroup_parse "VIS" RP_RMK md_default)) (fun v21 => 
    chk 3466 (Ok (has_value v21)) (
    step 3467 (let! v22 := deref v21 in VisibilityGroup_append v22 "W" RP_RMK md_default) (fun p => let v23 := Some (fst p) in let v24 := snd p in 
    chk 3467 (Ok (AppendResult_beq v24 APPENDED)) (
    step 3468 (let! v25 := deref v23 in VisibilityGroup_append v25 "1" RP_RMK md_default) (fun p => let v26 := Some (fst p) in let v27 := snd p in 
    chk 3468 (Ok (AppendResult_beq v27 APPENDED)) (
    step 3469 (let! v28 := deref v26 in VisibilityGroup_append v28 "1500" RP_RMK md_default) (fun p => let v29 := Some (fst p) in let v30 := snd p in 
    chk 3469 (Ok (AppendResult_beq v30 NOT_APPENDED)) (
    step 3472 ((VisibilityGroup_parse "VIS" RP_RMK md_default)) (fun v31 => 
    chk 3473 (Ok (has_value v31)) (
    step 3474 (let! v32 := deref v31 in VisibilityGroup_append v32 "W" RP_RMK md_default) (fun p => let v33 := Some (fst p) in let v34 := snd p in 
    chk 3474 (Ok (AppendResult_beq v34 APPENDED)) (
    step 3475 (let! v35 := deref v33 in VisibilityGroup_append v35 "1" RP_RMK md_default) (fun p => let v36 := Some (fst p) in let v37 := snd p in 
    chk 3475 (Ok (AppendResult_beq v37 APPENDED)) (
    step 3476 (let! v38 := deref v36 in VisibilityGroup_append v38 "////" RP_RMK md_default) (fun p => let v39 := Some (fst p) in let v40 := snd p in 
    chk 3476 (Ok (AppendResult_beq v40 NOT_APPENDED)) (
    step 3479 ((VisibilityGroup_parse "VIS" RP_RMK md_default)) (fun v41 => 
    chk 3480 (Ok (has_value v41)) (
    step 3481 (let! v42 := deref v41 in VisibilityGroup_append v42 "W" RP_RMK md_default) (fun p => let v43 := Some (fst p) in let v44 := snd p in 
    chk 3481 (Ok (AppendResult_beq v44 APPENDED)) (
    step 3482 (let! v45 := deref v43 in VisibilityGroup_append v45 "1" RP_RMK md_default) (fun p => let v46 := Some (fst p) in let v47 := snd p in 
    chk 3482 (Ok (AppendResult_beq v47 APPENDED)) (
    step 3483 (let! v48 := deref v46 in VisibilityGroup_append v48 "////SM" RP_RMK md_default) (fun p => let v49 := Some (fst p) in let v50 := snd p in 
    chk 3483 (Ok (AppendResult_beq v50 NOT_APPENDED)) (
    step 3486 ((VisibilityGroup_parse "VIS" RP_RMK md_default)) (fun v51 => 
    chk 3487 (Ok (has_value v51)) (
    step 3488 (let! v52 := deref v51 in VisibilityGroup_append v52 "W" RP_RMK md_default) (fun p => let v53 := Some (fst p) in let v54 := snd p in 
    chk 3488 (Ok (AppendResult_beq v54 APPENDED)) (
    step 3489 (let! v55 := deref v53 in VisibilityGroup_append v55 "1" RP_RMK md_default) (fun p => let v56 := Some (fst p) in let v57 := snd p in 
    chk 3489 (Ok (AppendResult_beq v57 APPENDED)) (
    step 3490 (let! v58 := deref v56 in VisibilityGroup_append v58 "2" RP_RMK md_default) (fun p => let v59 := Some (fst p) in let v60 := snd p in 
    chk 3490 (Ok (AppendResult_beq v60 NOT_APPENDED)) (
    None)))))))))))))))))))))))))))))))))))))))))))))))).

Definition t_VisibilityGroup_invalidDirVarVisGroupWrongVariableRangeMiles : option N :=
    step 3495 ((VisibilityGroup_parse "VIS" RP_RMK md_default)) (fun v1 => 
    chk 3496 (Ok (has_value v1)) (
    step 3497 (let! v2 := deref v1 in VisibilityGroup_append v2 "W" RP_RMK md_default) (fun p => let v3 := Some (fst p) in let v4 := snd p in 
    chk 3497 (Ok (AppendResult_beq v4 APPENDED)) (
    step 3499 (let! v5 := deref v3 in VisibilityGroup_append v5 "1/2V7/16" RP_RMK md_default) (fun p => let v6 := Some (fst p) in let v7 := snd p in 
    chk 3499 (Ok (AppendResult_beq v7 APPENDED)) (
    step 3501 (let! v8 := deref v6 in VisibilityGroup_append v8 "" RP_RMK md_default) (fun p => let v9 := Some (fst p) in let v10 := snd p in 
    chk 3501 (Ok (AppendResult_beq v10 NOT_APPENDED)) (
    chk 3503 (let! v11 := deref v9 in Ok (negb (VisibilityGroup_isValid v11))) (
    None))))))))).

Definition t_VisibilityGroup_invalidDirVarVisGroupWrongVariableRangeMeters : option N :=
    step 3507 ((VisibilityGroup_parse "VIS" RP_RMK md_default)) (fun v1 => 
    chk 3508 (Ok (has_value v1)) (
    step 3509 (let! v2 := deref v1 in VisibilityGroup_append v2 "W" RP_RMK md_default) (fun p => let v3 := Some (fst p) in let v4 := snd p in 
    chk 3509 (Ok (AppendResult_beq v4 APPENDED)) (
    step 3511 (let! v5 := deref v3 in VisibilityGroup_append v5 "1500V1400" RP_RMK md_default) (fun p => let v6 := Some (fst p) in let v7 := snd p in 
    chk 3511 (Ok (AppendResult_beq v7 APPENDED)) (
    step 3513 (let! v8 := deref v6 in VisibilityGroup_append v8 "" RP_RMK md_default) (fun p => let v9 := Some (fst p) in let v10 := snd p in 
    chk 3513 (Ok (AppendResult_beq v10 NOT_APPENDED)) (
    chk 3515 (let! v11 := deref v9 in Ok (negb (VisibilityGroup_isValid v11))) (
    None))))))))).

Definition t_VisibilityGroup_parseRmkVisDirectionalNonVariableMeters : option N :=
    step 3528 ((VisibilityGroup_parse "VIS" RP_RMK md_default)) (fun v1 => 
    chk 3529 (Ok (has_value v1)) (
    step 3530 (let! v2 := deref v1 in VisibilityGroup_append v2 "W" RP_RMK md_default) (fun p => let v3 := Some (fst p) in let v4 := snd p in 
    chk 3530 (Ok (AppendResult_beq v4 APPENDED)) (
    step 3531 (let! v5 := deref v3 in VisibilityGroup_append v5 "1500" RP_RMK md_default) (fun p => let v6 := Some (fst p) in let v7 := snd p in 
    chk 3531 (Ok (AppendResult_beq v7 GROUP_INVALIDATED)) (
    None)))))).

Definition t_VisibilityGroup_parseRmkVisRunwayIntegerVariableInteger : option N :=
    step 3543 ((VisibilityGroup_parse "VIS" RP_RMK md_default)) (fun v1 => 
    chk 3544 (Ok (has_value v1)) (
    step 3546 (let! v2 := deref v1 in VisibilityGroup_append v2 "1V3" RP_RMK md_default) (fun p => let v3 := Some (fst p) in let v4 := snd p in 
    chk 3546 (Ok (AppendResult_beq v4 APPENDED)) (
    step 3548 (let! v5 := deref v3 in VisibilityGroup_append v5 "R22" RP_RMK md_default) (fun p => let v6 := Some (fst p) in let v7 := snd p in 
    chk 3548 (Ok (AppendResult_beq v7 APPENDED)) (
    step 3550 (let! v8 := deref v6 in VisibilityGroup_append v8 "" RP_RMK md_default) (fun p => let v9 := Some (fst p) in let v10 := snd p in 
    chk 3550 (Ok (AppendResult_beq v10 NOT_APPENDED)) (
    chk 3553 (let! v11 := deref v9 in Ok (ViType_beq (vi_type v11) Vi_VARIABLE_RUNWAY)) (
    chk 3554 (let! v12 := deref v9 in Ok (negb (Distance_isReported (VisibilityGroup_visibility v12)))) (
    chk 3555 (let! v13 := deref v9 in Ok (negb (has_value (vi_dir v13)))) (
    chk 3557 (let! v14 := deref v9 in Ok (has_value (vi_rw v14))) (
    chk 3558 (let! v15 := deref v9 in let! v16 := deref (vi_rw v15) in Ok (N.eqb (rNumber v16) 22%N)) (
    chk 3559 (let! v17 := deref v9 in let! v18 := deref (vi_rw v17) in Ok (RwDesignator_beq (rDesignator v18) Rw_NONE)) (
    chk 3561 (let! v19 := deref v9 in Ok (DistModifier_beq (distModifier (VisibilityGroup_minVisibility v19)) DM_NONE)) (
    chk 3562 (let! v20 := deref v9 in Ok (Distance_isReported (VisibilityGroup_minVisibility v20))) (
    chk 3563 (let! v21 := deref v9 in Ok (has_value (Distance_distance (VisibilityGroup_minVisibility v21)))) (
    chk 3564 (let! v22 := deref v9 in let! v23 := deref (Distance_distance (VisibilityGroup_minVisibility v22)) in Ok (near v23 (dlit (1) 1) (dlit (1) 200))) (
    chk 3565 (let! v24 := deref v9 in Ok (DistUnit_beq (distUnit (VisibilityGroup_minVisibility v24)) STATUTE_MILES)) (
    chk 3567 (let! v25 := deref v9 in Ok (DistModifier_beq (distModifier (VisibilityGroup_maxVisibility v25)) DM_NONE)) (
    chk 3568 (let! v26 := deref v9 in Ok (Distance_isReported (VisibilityGroup_maxVisibility v26))) (
    chk 3569 (let! v27 := deref v9 in Ok (has_value (Distance_distance (VisibilityGroup_maxVisibility v27)))) (
    chk 3570 (let! v28 := deref v9 in let! v29 := deref (Distance_distance (VisibilityGroup_maxVisibility v28)) in Ok (near v29 (dlit (3) 1) (dlit (1) 200))) (
    chk 3571 (let! v30 := deref v9 in Ok (DistUnit_beq (distUnit (VisibilityGroup_maxVisibility v30)) STATUTE_MILES)) (
    chk 3573 (let! v31 := deref v9 in let! v32 := (VisibilityGroup_sectorDirections v31) in Ok (N.eqb (N.of_nat (List.length v32)) 0%N)) (
    chk 3574 (let! v33 := deref v9 in Ok (ViTrend_beq (vi_trend v33) Vt_NONE)) (
    chk 3575 (let! v34 := deref v9 in Ok (VisibilityGroup_isValid v34)) (
    None))))))))))))))))))))))))))).

Definition t_VisibilityGroup_parseRmkVisRunwayFractionVariableInteger : option N :=
    step 3579 ((VisibilityGroup_parse "VIS" RP_RMK md_default)) (fun v1 => 
    chk 3580 (Ok (has_value v1)) (
    step 3582 (let! v2 := deref v1 in VisibilityGroup_append v2 "1/2V3" RP_RMK md_default) (fun p => let v3 := Some (fst p) in let v4 := snd p in 
    chk 3582 (Ok (AppendResult_beq v4 APPENDED)) (
    step 3584 (let! v5 := deref v3 in VisibilityGroup_append v5 "R22" RP_RMK md_default) (fun p => let v6 := Some (fst p) in let v7 := snd p in 
    chk 3584 (Ok (AppendResult_beq v7 APPENDED)) (
    step 3586 (let! v8 := deref v6 in VisibilityGroup_append v8 "" RP_RMK md_default) (fun p => let v9 := Some (fst p) in let v10 := snd p in 
    chk 3586 (Ok (AppendResult_beq v10 NOT_APPENDED)) (
    chk 3589 (let! v11 := deref v9 in Ok (ViType_beq (vi_type v11) Vi_VARIABLE_RUNWAY)) (
    chk 3590 (let! v12 := deref v9 in Ok (negb (Distance_isReported (VisibilityGroup_visibility v12)))) (
    chk 3591 (let! v13 := deref v9 in Ok (negb (has_value (vi_dir v13)))) (
    chk 3593 (let! v14 := deref v9 in Ok (has_value (vi_rw v14))) (
    chk 3594 (let! v15 := deref v9 in let! v16 := deref (vi_rw v15) in Ok (N.eqb (rNumber v16) 22%N)) (
    chk 3595 (let! v17 := deref v9 in let! v18 := deref (vi_rw v17) in Ok (RwDesignator_beq (rDesignator v18) Rw_NONE)) (
    chk 3597 (let! v19 := deref v9 in Ok (DistModifier_beq (distModifier (VisibilityGroup_minVisibility v19)) DM_NONE)) (
    chk 3598 (let! v20 := deref v9 in Ok (Distance_isReported (VisibilityGroup_minVisibility v20))) (
    chk 3599 (let! v21 := deref v9 in Ok (has_value (Distance_distance (VisibilityGroup_minVisibility v21)))) (
    chk 3600 (let! v22 := deref v9 in let! v23 := deref (Distance_distance (VisibilityGroup_minVisibility v22)) in Ok (near v23 (dlit (1) 2) (dlit (1) 200))) (
    chk 3601 (let! v24 := deref v9 in Ok (DistUnit_beq (distUnit (VisibilityGroup_minVisibility v24)) STATUTE_MILES)) (
    chk 3603 (let! v25 := deref v9 in Ok (DistModifier_beq (distModifier (VisibilityGroup_maxVisibility v25)) DM_NONE)) (
    chk 3604 (let! v26 := deref v9 in Ok (Distance_isReported (VisibilityGroup_maxVisibility v26))) (
    chk 3605 (let! v27 := deref v9 in Ok (has_value (Distance_distance (VisibilityGroup_maxVisibility v27)))) (
    chk 3606 (let! v28 := deref v9 in let! v29 := deref (Distance_distance (VisibilityGroup_maxVisibility v28)) in Ok (near v29 (dlit (3) 1) (dlit (1) 200))) (
    chk 3607 (let! v30 := deref v9 in Ok (DistUnit_beq (distUnit (VisibilityGroup_maxVisibility v30)) STATUTE_MILES)) (
    chk 3609 (let! v31 := deref v9 in let! v32 := (VisibilityGroup_sectorDirections v31) in Ok (N.eqb (N.of_nat (List.length v32)) 0%N)) (
    chk 3610 (let! v33 := deref v9 in Ok (ViTrend_beq (vi_trend v33) Vt_NONE)) (
    chk 3611 (let! v34 := deref v9 in Ok (VisibilityGroup_isValid v34)) (
    None))))))))))))))))))))))))))).

Definition t_VisibilityGroup_parseRmkVisRunwayFractionVariableFraction : option N :=
    step 3615 ((VisibilityGroup_parse "VIS" RP_RMK md_default)) (fun v1 => 
    chk 3616 (Ok (has_value v1)) (
    step 3618 (let! v2 := deref v1 in VisibilityGroup_append v2 "1/8V3/4" RP_RMK md_default) (fun p => let v3 := Some (fst p) in let v4 := snd p in 
    chk 3618 (Ok (AppendResult_beq v4 APPENDED)) (
    step 3620 (let! v5 := deref v3 in VisibilityGroup_append v5 "R22" RP_RMK md_default) (fun p => let v6 := Some (fst p) in let v7 := snd p in 
    chk 3620 (Ok (AppendResult_beq v7 APPENDED)) (
    step 3622 (let! v8 := deref v6 in VisibilityGroup_append v8 "" RP_RMK md_default) (fun p => let v9 := Some (fst p) in let v10 := snd p in 
    chk 3622 (Ok (AppendResult_beq v10 NOT_APPENDED)) (
    chk 3625 (let! v11 := deref v9 in Ok (ViType_beq (vi_type v11) Vi_VARIABLE_RUNWAY)) (
    chk 3626 (let! v12 := deref v9 in Ok (negb (Distance_isReported (VisibilityGroup_visibility v12)))) (
    chk 3627 (let! v13 := deref v9 in Ok (negb (has_value (vi_dir v13)))) (
    chk 3629 (let! v14 := deref v9 in Ok (has_value (vi_rw v14))) (
    chk 3630 (let! v15 := deref v9 in let! v16 := deref (vi_rw v15) in Ok (N.eqb (rNumber v16) 22%N)) (
    chk 3631 (let! v17 := deref v9 in let! v18 := deref (vi_rw v17) in Ok (RwDesignator_beq (rDesignator v18) Rw_NONE)) (
    chk 3633 (let! v19 := deref v9 in Ok (DistModifier_beq (distModifier (VisibilityGroup_minVisibility v19)) DM_NONE)) (
    chk 3634 (let! v20 := deref v9 in Ok (Distance_isReported (VisibilityGroup_minVisibility v20))) (
    chk 3635 (let! v21 := deref v9 in Ok (has_value (Distance_distance (VisibilityGroup_minVisibility v21)))) (
    chk 3636 (let! v22 := deref v9 in let! v23 := deref (Distance_distance (VisibilityGroup_minVisibility v22)) in Ok (near v23 (dlit (1) 8) (dlit (1) 200))) (
    chk 3637 (let! v24 := deref v9 in Ok (DistUnit_beq (distUnit (VisibilityGroup_minVisibility v24)) STATUTE_MILES)) (
    chk 3639 (let! v25 := deref v9 in Ok (DistModifier_beq (distModifier (VisibilityGroup_maxVisibility v25)) DM_NONE)) (
    chk 3640 (let! v26 := deref v9 in Ok (Distance_isReported (VisibilityGroup_maxVisibility v26))) (
    chk 3641 (let! v27 := deref v9 in Ok (has_value (Distance_distance (VisibilityGroup_maxVisibility v27)))) (
    chk 3642 (let! v28 := deref v9 in let! v29 := deref (Distance_distance (VisibilityGroup_maxVisibility v28)) in Ok (flt_eqb v29 (dlit (3) 4))) (
    chk 3643 (let! v30 := deref v9 in Ok (DistUnit_beq (distUnit (VisibilityGroup_maxVisibility v30)) STATUTE_MILES)) (
    chk 3645 (let! v31 := deref v9 in let! v32 := (VisibilityGroup_sectorDirections v31) in Ok (N.eqb (N.of_nat (List.length v32)) 0%N)) (
    chk 3646 (let! v33 := deref v9 in Ok (ViTrend_beq (vi_trend v33) Vt_NONE)) (
    chk 3647 (let! v34 := deref v9 in Ok (VisibilityGroup_isValid v34)) (
    None))))))))))))))))))))))))))).

Definition t_VisibilityGroup_parseRmkVisRunwayIntegerFractionVariableInteger : option N :=
    step 3651 ((VisibilityGroup_parse "VIS" RP_RMK md_default)) (fun v1 => 
    chk 3652 (Ok (has_value v1)) (
    step 3654 (let! v2 := deref v1 in VisibilityGroup_append v2 "2" RP_RMK md_default) (fun p => let v3 := Some (fst p) in let v4 := snd p in 
    chk 3654 (Ok (AppendResult_beq v4 APPENDED)) (
    step 3656 (let! v5 := deref v3 in VisibilityGroup_append v5 "1/4V3" RP_RMK md_default) (fun p => let v6 := Some (fst p) in let v7 := snd p in 
    chk 3656 (Ok (AppendResult_beq v7 APPENDED)) (
    step 3658 (let! v8 := deref v6 in VisibilityGroup_append v8 "R22" RP_RMK md_default) (fun p => let v9 := Some (fst p) in let v10 := snd p in 
    chk 3658 (Ok (AppendResult_beq v10 APPENDED)) (
    step 3660 (let! v11 := deref v9 in VisibilityGroup_append v11 "" RP_RMK md_default) (fun p => let v12 := Some (fst p) in let v13 := snd p in 
    chk 3660 (Ok (AppendResult_beq v13 NOT_APPENDED)) (
    chk 3663 (let! v14 := deref v12 in Ok (ViType_beq (vi_type v14) Vi_VARIABLE_RUNWAY)) (
    chk 3664 (let! v15 := deref v12 in Ok (negb (Distance_isReported (VisibilityGroup_visibility v15)))) (
    chk 3665 (let! v16 := deref v12 in Ok (negb (has_value (vi_dir v16)))) (
    chk 3667 (let! v17 := deref v12 in Ok (has_value (vi_rw v17))) (
    chk 3668 (let! v18 := deref v12 in let! v19 := deref (vi_rw v18) in Ok (N.eqb (rNumber v19) 22%N)) (
    chk 3669 (let! v20 := deref v12 in let! v21 := deref (vi_rw v20) in Ok (RwDesignator_beq (rDesignator v21) Rw_NONE)) (
    chk 3671 (let! v22 := deref v12 in Ok (DistModifier_beq (distModifier (VisibilityGroup_minVisibility v22)) DM_NONE)) (
    chk 3672 (let! v23 := deref v12 in Ok (Distance_isReported (VisibilityGroup_minVisibility v23))) (
    chk 3673 (let! v24 := deref v12 in Ok (has_value (Distance_distance (VisibilityGroup_minVisibility v24)))) (
    chk 3674 (let! v25 := deref v12 in let! v26 := deref (Distance_distance (VisibilityGroup_minVisibility v25)) in Ok (near v26 (dlit (9) 4) (dlit (1) 200))) (
    chk 3675 (let! v27 := deref v12 in Ok (DistUnit_beq (distUnit (VisibilityGroup_minVisibility v27)) STATUTE_MILES)) (
    chk 3677 (let! v28 := deref v12 in Ok (DistModifier_beq (distModifier (VisibilityGroup_maxVisibility v28)) DM_NONE)) (
    chk 3678 (let! v29 := deref v12 in Ok (Distance_isReported (VisibilityGroup_maxVisibility v29))) (
    chk 3679 (let! v30 := deref v12 in Ok (has_value (Distance_distance (VisibilityGroup_maxVisibility v30)))) (
    chk 3680 (let! v31 := deref v12 in let! v32 := deref (Distance_distance (VisibilityGroup_maxVisibility v31)) in Ok (near v32 (dlit (3) 1) (dlit (1) 200))) (
    chk 3681 (let! v33 := deref v12 in Ok (DistUnit_beq (distUnit (VisibilityGroup_maxVisibility v33)) STATUTE_MILES)) (
    chk 3683 (let! v34 := deref v12 in let! v35 := (VisibilityGroup_sectorDirections v34) in Ok (N.eqb (N.of_nat (List.length v35)) 0%N)) (
    chk 3684 (let! v36 := deref v12 in Ok (ViTrend_beq (vi_trend v36) Vt_NONE)) (
    chk 3685 (let! v37 := deref v12 in Ok (VisibilityGroup_isValid v37)) (
    None))))))))))))))))))))))))))))).

Definition t_VisibilityGroup_parseRmkVisRunwayFractionVariableIntegerFraction : option N :=
    step 3689 ((VisibilityGroup_parse "VIS" RP_RMK md_default)) (fun v1 => 
    chk 3690 (Ok (has_value v1)) (
    step 3692 (let! v2 := deref v1 in VisibilityGroup_append v2 "1/2V2" RP_RMK md_default) (fun p => let v3 := Some (fst p) in let v4 := snd p in 
    chk 3692 (Ok (AppendResult_beq v4 APPENDED)) (
    step 3694 (let! v5 := deref v3 in VisibilityGroup_append v5 "3/4" RP_RMK md_default) (fun p => let v6 := Some (fst p) in let v7 := snd p in 
    chk 3694 (Ok (AppendResult_beq v7 APPENDED)) (
    step 3696 (let! v8 := deref v6 in VisibilityGroup_append v8 "R22" RP_RMK md_default) (fun p => let v9 := Some (fst p) in let v10 := snd p in 
    chk 3696 (Ok (AppendResult_beq v10 APPENDED)) (
    step 3698 (let! v11 := deref v9 in VisibilityGroup_append v11 "" RP_RMK md_default) (fun p => let v12 := Some (fst p) in let v13 := snd p in 
    chk 3698 (Ok (AppendResult_beq v13 NOT_APPENDED)) (
    chk 3701 (let! v14 := deref v12 in Ok (ViType_beq (vi_type v14) Vi_VARIABLE_RUNWAY)) (
    chk 3702 (let! v15 := deref v12 in Ok (negb (Distance_isReported (VisibilityGroup_visibility v15)))) (
    chk 3703 (let! v16 := deref v12 in Ok (negb (has_value (vi_dir v16)))) (
    chk 3705 (let! v17 := deref v12 in Ok (has_value (vi_rw v17))) (
    chk 3706 (let! v18 := deref v12 in let! v19 := deref (vi_rw v18) in Ok (N.eqb (rNumber v19) 22%N)) (
    chk 3707 (let! v20 := deref v12 in let! v21 := deref (vi_rw v20) in Ok (RwDesignator_beq (rDesignator v21) Rw_NONE)) (
    chk 3709 (let! v22 := deref v12 in Ok (DistModifier_beq (distModifier (VisibilityGroup_minVisibility v22)) DM_NONE)) (
    chk 3710 (let! v23 := deref v12 in Ok (Distance_isReported (VisibilityGroup_minVisibility v23))) (
    chk 3711 (let! v24 := deref v12 in Ok (has_value (Distance_distance (VisibilityGroup_minVisibility v24)))) (
    chk 3712 (let! v25 := deref v12 in let! v26 := deref (Distance_distance (VisibilityGroup_minVisibility v25)) in Ok (near v26 (dlit (1) 2) (dlit (1) 200))) (
    chk 3713 (let! v27 := deref v12 in Ok (DistUnit_beq (distUnit (VisibilityGroup_minVisibility v27)) STATUTE_MILES)) (
    chk 3715 (let! v28 := deref v12 in Ok (DistModifier_beq (distModifier (VisibilityGroup_maxVisibility v28)) DM_NONE)) (
    chk 3716 (let! v29 := deref v12 in Ok (Distance_isReported (VisibilityGroup_maxVisibility v29))) (
    chk 3717 (let! v30 := deref v12 in Ok (has_value (Distance_distance (VisibilityGroup_maxVisibility v30)))) (
    chk 3718 (let! v31 := deref v12 in let! v32 := deref (Distance_distance (VisibilityGroup_maxVisibility v31)) in Ok (near v32 (dlit (11) 4) (dlit (1) 200))) (
    chk 3719 (let! v33 := deref v12 in Ok (DistUnit_beq (distUnit (VisibilityGroup_maxVisibility v33)) STATUTE_MILES)) (
    chk 3721 (let! v34 := deref v12 in let! v35 := (VisibilityGroup_sectorDirections v34) in Ok (N.eqb (N.of_nat (List.length v35)) 0%N)) (
    chk 3722 (let! v36 := deref v12 in Ok (ViTrend_beq (vi_trend v36) Vt_NONE)) (
    chk 3723 (let! v37 := deref v12 in Ok (VisibilityGroup_isValid v37)) (
    None))))))))))))))))))))))))))))).

Definition t_VisibilityGroup_parseRmkVisRunwayIntegerFractionVariableIntegerFraction : option N :=
    step 3727 ((VisibilityGroup_parse "VIS" RP_RMK md_default)) (fun v1 => 
    chk 3728 (Ok (has_value v1)) (
    step 3730 (let! v2 := deref v1 in VisibilityGroup_append v2 "1" RP_RMK md_default) (fun p => let v3 := Some (fst p) in let v4 := snd p in 
    chk 3730 (Ok (AppendResult_beq v4 APPENDED)) (
    step 3732 (let! v5 := deref v3 in VisibilityGroup_append v5 "3/4V2" RP_RMK md_default) (fun p => let v6 := Some (fst p) in let v7 := snd p in 
    chk 3732 (Ok (AppendResult_beq v7 APPENDED)) (
    step 3734 (let! v8 := deref v6 in VisibilityGroup_append v8 "1/2" RP_RMK md_default) (fun p => let v9 := Some (fst p) in let v10 := snd p in 
    chk 3734 (Ok (AppendResult_beq v10 APPENDED)) (
    step 3736 (let! v11 := deref v9 in VisibilityGroup_append v11 "R22" RP_RMK md_default) (fun p => let v12 := Some (fst p) in let v13 := snd p in 
    chk 3736 (Ok (AppendResult_beq v13 APPENDED)) (
    step 3738 (let! v14 := deref v12 in VisibilityGroup_append v14 "" RP_RMK md_default) (fun p => let v15 := Some (fst p) in let v16 := snd p in 
    chk 3738 (Ok (AppendResult_beq v16 NOT_APPENDED)) (
    chk 3741 (let! v17 := deref v15 in Ok (ViType_beq (vi_type v17) Vi_VARIABLE_RUNWAY)) (
    chk 3742 (let! v18 := deref v15 in Ok (negb (Distance_isReported (VisibilityGroup_visibility v18)))) (
    chk 3743 (let! v19 := deref v15 in Ok (negb (has_value (vi_dir v19)))) (
    chk 3745 (let! v20 := deref v15 in Ok (has_value (vi_rw v20))) (
    chk 3746 (let! v21 := deref v15 in let! v22 := deref (vi_rw v21) in Ok (N.eqb (rNumber v22) 22%N)) (
    chk 3747 (let! v23 := deref v15 in let! v24 := deref (vi_rw v23) in Ok (RwDesignator_beq (rDesignator v24) Rw_NONE)) (
    chk 3749 (let! v25 := deref v15 in Ok (DistModifier_beq (distModifier (VisibilityGroup_minVisibility v25)) DM_NONE)) (
    chk 3750 (let! v26 := deref v15 in Ok (Distance_isReported (VisibilityGroup_minVisibility v26))) (
    chk 3751 (let! v27 := deref v15 in Ok (has_value (Distance_distance (VisibilityGroup_minVisibility v27)))) (
    chk 3752 (let! v28 := deref v15 in let! v29 := deref (Distance_distance (VisibilityGroup_minVisibility v28)) in Ok (near v29 (dlit (7) 4) (dlit (1) 200))) (
    chk 3753 (let! v30 := deref v15 in Ok (DistUnit_beq (distUnit (VisibilityGroup_minVisibility v30)) STATUTE_MILES)) (
    chk 3755 (let! v31 := deref v15 in Ok (DistModifier_beq (distModifier (VisibilityGroup_maxVisibility v31)) DM_NONE)) (
    chk 3756 (let! v32 := deref v15 in Ok (Distance_isReported (VisibilityGroup_maxVisibility v32))) (
    chk 3757 (let! v33 := deref v15 in Ok (has_value (Distance_distance (VisibilityGroup_maxVisibility v33)))) (
    chk 3758 (let! v34 := deref v15 in let! v35 := deref (Distance_distance (VisibilityGroup_maxVisibility v34)) in Ok (near v35 (dlit (5) 2) (dlit (1) 200))) (
    chk 3759 (let! v36 := deref v15 in Ok (DistUnit_beq (distUnit (VisibilityGroup_maxVisibility v36)) STATUTE_MILES)) (
    chk 3761 (let! v37 := deref v15 in let! v38 := (VisibilityGroup_sectorDirections v37) in Ok (N.eqb (N.of_nat (List.length v38)) 0%N)) (
    chk 3762 (let! v39 := deref v15 in Ok (ViTrend_beq (vi_trend v39) Vt_NONE)) (
    chk 3763 (let! v40 := deref v15 in Ok (VisibilityGroup_isValid v40)) (
    None))))))))))))))))))))))))))))))).

Definition t_VisibilityGroup_parseRmkVisRunwayVariableMeters : option N :=
    step 3767 ((VisibilityGroup_parse "VIS" RP_RMK md_default)) (fun v1 => 
    chk 3768 (Ok (has_value v1)) (
    step 3770 (let! v2 := deref v1 in VisibilityGroup_append v2 "1200V9999" RP_RMK md_default) (fun p => let v3 := Some (fst p) in let v4 := snd p in 
    chk 3770 (Ok (AppendResult_beq v4 APPENDED)) (
    step 3772 (let! v5 := deref v3 in VisibilityGroup_append v5 "R22" RP_RMK md_default) (fun p => let v6 := Some (fst p) in let v7 := snd p in 
    chk 3772 (Ok (AppendResult_beq v7 APPENDED)) (
    step 3774 (let! v8 := deref v6 in VisibilityGroup_append v8 "" RP_RMK md_default) (fun p => let v9 := Some (fst p) in let v10 := snd p in 
    chk 3774 (Ok (AppendResult_beq v10 NOT_APPENDED)) (
    chk 3777 (let! v11 := deref v9 in Ok (ViType_beq (vi_type v11) Vi_VARIABLE_RUNWAY)) (
    chk 3778 (let! v12 := deref v9 in Ok (negb (Distance_isReported (VisibilityGroup_visibility v12)))) (
    chk 3779 (let! v13 := deref v9 in Ok (negb (has_value (vi_dir v13)))) (
    chk 3781 (let! v14 := deref v9 in Ok (has_value (vi_rw v14))) (
    chk 3782 (let! v15 := deref v9 in let! v16 := deref (vi_rw v15) in Ok (N.eqb (rNumber v16) 22%N)) (
    chk 3783 (let! v17 := deref v9 in let! v18 := deref (vi_rw v17) in Ok (RwDesignator_beq (rDesignator v18) Rw_NONE)) (
    chk 3785 (let! v19 := deref v9 in Ok (Distance_isReported (VisibilityGroup_minVisibility v19))) (
    chk 3786 (let! v20 := deref v9 in Ok (has_value (Distance_distance (VisibilityGroup_minVisibility v20)))) (
    chk 3787 (let! v21 := deref v9 in let! v22 := deref (Distance_distance (VisibilityGroup_minVisibility v21)) in Ok (near v22 (dlit (1200) 1) (dlit (1) 200))) (
    chk 3788 (let! v23 := deref v9 in Ok (DistModifier_beq (distModifier (VisibilityGroup_minVisibility v23)) DM_NONE)) (
    chk 3789 (let! v24 := deref v9 in Ok (DistUnit_beq (distUnit (VisibilityGroup_minVisibility v24)) METERS)) (
    chk 3791 (let! v25 := deref v9 in Ok (Distance_isReported (VisibilityGroup_maxVisibility v25))) (
    chk 3792 (let! v26 := deref v9 in Ok (has_value (Distance_distance (VisibilityGroup_maxVisibility v26)))) (
    chk 3793 (let! v27 := deref v9 in let! v28 := deref (Distance_distance (VisibilityGroup_maxVisibility v27)) in Ok (near v28 (dlit (10000) 1) (dlit (1) 200))) (
    chk 3794 (let! v29 := deref v9 in Ok (DistModifier_beq (distModifier (VisibilityGroup_maxVisibility v29)) DM_MORE_THAN)) (
    chk 3795 (let! v30 := deref v9 in Ok (DistUnit_beq (distUnit (VisibilityGroup_maxVisibility v30)) METERS)) (
    chk 3797 (let! v31 := deref v9 in let! v32 := (VisibilityGroup_sectorDirections v31) in Ok (N.eqb (N.of_nat (List.length v32)) 0%N)) (
    chk 3798 (let! v33 := deref v9 in Ok (ViTrend_beq (vi_trend v33) Vt_NONE)) (
    chk 3799 (let! v34 := deref v9 in Ok (VisibilityGroup_isValid v34)) (
    None))))))))))))))))))))))))))).

Definition t_VisibilityGroup_parseRmkVisRunwayModifierFractionVariableInteger : option N :=
    step 3803 ((VisibilityGroup_parse "VIS" RP_RMK md_default)) (fun v1 => 
    chk 3804 (Ok (has_value v1)) (
    step 3806 (let! v2 := deref v1 in VisibilityGroup_append v2 "M1/4V5" RP_RMK md_default) (fun p => let v3 := Some (fst p) in let v4 := snd p in 
    chk 3806 (Ok (AppendResult_beq v4 APPENDED)) (
    step 3808 (let! v5 := deref v3 in VisibilityGroup_append v5 "R22" RP_RMK md_default) (fun p => let v6 := Some (fst p) in let v7 := snd p in 
    chk 3808 (Ok (AppendResult_beq v7 APPENDED)) (
    step 3810 (let! v8 := deref v6 in VisibilityGroup_append v8 "" RP_RMK md_default) (fun p => let v9 := Some (fst p) in let v10 := snd p in 
    chk 3810 (Ok (AppendResult_beq v10 NOT_APPENDED)) (
    chk 3813 (let! v11 := deref v9 in Ok (ViType_beq (vi_type v11) Vi_VARIABLE_RUNWAY)) (
    chk 3814 (let! v12 := deref v9 in Ok (negb (Distance_isReported (VisibilityGroup_visibility v12)))) (
    chk 3815 (let! v13 := deref v9 in Ok (negb (has_value (vi_dir v13)))) (
    chk 3817 (let! v14 := deref v9 in Ok (has_value (vi_rw v14))) (
    chk 3818 (let! v15 := deref v9 in let! v16 := deref (vi_rw v15) in Ok (N.eqb (rNumber v16) 22%N)) (
    chk 3819 (let! v17 := deref v9 in let! v18 := deref (vi_rw v17) in Ok (RwDesignator_beq (rDesignator v18) Rw_NONE)) (
    chk 3821 (let! v19 := deref v9 in Ok (DistModifier_beq (distModifier (VisibilityGroup_minVisibility v19)) DM_LESS_THAN)) (
    chk 3822 (let! v20 := deref v9 in Ok (Distance_isReported (VisibilityGroup_minVisibility v20))) (
    chk 3823 (let! v21 := deref v9 in Ok (has_value (Distance_distance (VisibilityGroup_minVisibility v21)))) (
    chk 3824 (let! v22 := deref v9 in let! v23 := deref (Distance_distance (VisibilityGroup_minVisibility v22)) in Ok (near v23 (dlit (1) 4) (dlit (1) 200))) (
    chk 3825 (let! v24 := deref v9 in Ok (DistUnit_beq (distUnit (VisibilityGroup_minVisibility v24)) STATUTE_MILES)) (
    chk 3827 (let! v25 := deref v9 in Ok (DistUnit_beq (distUnit (VisibilityGroup_maxVisibility v25)) STATUTE_MILES)) (
    chk 3828 (let! v26 := deref v9 in Ok (Distance_isReported (VisibilityGroup_maxVisibility v26))) (
    chk 3829 (let! v27 := deref v9 in Ok (has_value (Distance_distance (VisibilityGroup_maxVisibility v27)))) (
    chk 3830 (let! v28 := deref v9 in let! v29 := deref (Distance_distance (VisibilityGroup_maxVisibility v28)) in Ok (near v29 (dlit (5) 1) (dlit (1) 200))) (
    chk 3831 (let! v30 := deref v9 in Ok (DistModifier_beq (distModifier (VisibilityGroup_maxVisibility v30)) DM_NONE)) (
    chk 3833 (let! v31 := deref v9 in let! v32 := (VisibilityGroup_sectorDirections v31) in Ok (N.eqb (N.of_nat (List.length v32)) 0%N)) (
    chk 3834 (let! v33 := deref v9 in Ok (ViTrend_beq (vi_trend v33) Vt_NONE)) (
    chk 3835 (let! v34 := deref v9 in Ok (VisibilityGroup_isValid v34)) (
    None))))))))))))))))))))))))))).

Definition t_VisibilityGroup_parseRmkVisRunwayFractionVariableModifierInteger : option N :=
    step 3839 ((VisibilityGroup_parse "VIS" RP_RMK md_default)) (fun v1 => 
    chk 3840 (Ok (has_value v1)) (
    step 3842 (let! v2 := deref v1 in VisibilityGroup_append v2 "1/4VP6" RP_RMK md_default) (fun p => let v3 := Some (fst p) in let v4 := snd p in 
    chk 3842 (Ok (AppendResult_beq v4 APPENDED)) (
    step 3844 (let! v5 := deref v3 in VisibilityGroup_append v5 "R22" RP_RMK md_default) (fun p => let v6 := Some (fst p) in let v7 := snd p in 
    chk 3844 (Ok (AppendResult_beq v7 APPENDED)) (
    step 3846 (let! v8 := deref v6 in VisibilityGroup_append v8 "" RP_RMK md_default) (fun p => let v9 := Some (fst p) in let v10 := snd p in 
    chk 3846 (Ok (AppendResult_beq v10 NOT_APPENDED)) (
    chk 3849 (let! v11 := deref v9 in Ok (ViType_beq (vi_type v11) Vi_VARIABLE_RUNWAY)) (
    chk 3850 (let! v12 := deref v9 in Ok (negb (Distance_isReported (VisibilityGroup_visibility v12)))) (
    chk 3851 (let! v13 := deref v9 in Ok (negb (has_value (vi_dir v13)))) (
    chk 3853 (let! v14 := deref v9 in Ok (has_value (vi_rw v14))) (
    chk 3854 (let! v15 := deref v9 in let! v16 := deref (vi_rw v15) in Ok (N.eqb (rNumber v16) 22%N)) (
    chk 3855 (let! v17 := deref v9 in let! v18 := deref (vi_rw v17) in Ok (RwDesignator_beq (rDesignator v18) Rw_NONE)) (
    chk 3857 (let! v19 := deref v9 in Ok (DistModifier_beq (distModifier (VisibilityGroup_minVisibility v19)) DM_NONE)) (
    chk 3858 (let! v20 := deref v9 in Ok (Distance_isReported (VisibilityGroup_minVisibility v20))) (
    chk 3859 (let! v21 := deref v9 in Ok (has_value (Distance_distance (VisibilityGroup_minVisibility v21)))) (
    chk 3860 (let! v22 := deref v9 in let! v23 := deref (Distance_distance (VisibilityGroup_minVisibility v22)) in Ok (near v23 (dlit (1) 4) (dlit (1) 200))) (
    chk 3861 (let! v24 := deref v9 in Ok (DistUnit_beq (distUnit (VisibilityGroup_minVisibility v24)) STATUTE_MILES)) (
    chk 3863 (let! v25 := deref v9 in Ok (DistUnit_beq (distUnit (VisibilityGroup_maxVisibility v25)) STATUTE_MILES)) (
    chk 3864 (let! v26 := deref v9 in Ok (Distance_isReported (VisibilityGroup_maxVisibility v26))) (
    chk 3865 (let! v27 := deref v9 in Ok (has_value (Distance_distance (VisibilityGroup_maxVisibility v27)))) (
    chk 3866 (let! v28 := deref v9 in let! v29 := deref (Distance_distance (VisibilityGroup_maxVisibility v28)) in Ok (near v29 (dlit (6) 1) (dlit (1) 200))) (
    chk 3867 (let! v30 := deref v9 in Ok (DistModifier_beq (distModifier (VisibilityGroup_maxVisibility v30)) DM_MORE_THAN)) (
    chk 3869 (let! v31 := deref v9 in let! v32 := (VisibilityGroup_sectorDirections v31) in Ok (N.eqb (N.of_nat (List.length v32)) 0%N)) (
    chk 3870 (let! v33 := deref v9 in Ok (ViTrend_beq (vi_trend v33) Vt_NONE)) (
    chk 3871 (let! v34 := deref v9 in Ok (VisibilityGroup_isValid v34)) (
    None))))))))))))))))))))))))))).

Definition t_VisibilityGroup_parseRmkVisRunwayModifierFractionVariableModifierInteger : option N :=
    step 3875 ((VisibilityGroup_parse "VIS" RP_RMK md_default)) (fun v1 => 
    chk 3876 (Ok (has_value v1)) (
    step 3878 (let! v2 := deref v1 in VisibilityGroup_append v2 "M1/4VP6" RP_RMK md_default) (fun p => let v3 := Some (fst p) in let v4 := snd p in 
    chk 3878 (Ok (AppendResult_beq v4 APPENDED)) (
    step 3880 (let! v5 := deref v3 in VisibilityGroup_append v5 "R22" RP_RMK md_default) (fun p => let v6 := Some (fst p) in let v7 := snd p in 
    chk 3880 (Ok (AppendResult_beq v7 APPENDED)) (
    step 3882 (let! v8 := deref v6 in VisibilityGroup_append v8 "" RP_RMK md_default) (fun p => let v9 := Some (fst p) in let v10 := snd p in 
    chk 3882 (Ok (AppendResult_beq v10 NOT_APPENDED)) (
    chk 3885 (let! v11 := deref v9 in Ok (ViType_beq (vi_type v11) Vi_VARIABLE_RUNWAY)) (
    chk 3886 (let! v12 := deref v9 in Ok (negb (Distance_isReported (VisibilityGroup_visibility v12)))) (
    chk 3887 (let! v13 := deref v9 in Ok (negb (has_value (vi_dir v13)))) (
    chk 3889 (let! v14 := deref v9 in Ok (has_value (vi_rw v14))) (
    chk 3890 (let! v15 := deref v9 in let! v16 := deref (vi_rw v15) in Ok (N.eqb (rNumber v16) 22%N)) (
    chk 3891 (let! v17 := deref v9 in let! v18 := deref (vi_rw v17) in Ok (RwDesignator_beq (rDesignator v18) Rw_NONE)) (
    chk 3893 (let! v19 := deref v9 in Ok (DistModifier_beq (distModifier (VisibilityGroup_minVisibility v19)) DM_LESS_THAN)) (
    chk 3894 (let! v20 := deref v9 in Ok (Distance_isReported (VisibilityGroup_minVisibility v20))) (
    chk 3895 (let! v21 := deref v9 in Ok (has_value (Distance_distance (VisibilityGroup_minVisibility v21)))) (
    chk 3896 (let! v22 := deref v9 in let! v23 := deref (Distance_distance (VisibilityGroup_minVisibility v22)) in Ok (near v23 (dlit (1) 4) (dlit (1) 200))) (
    chk 3897 (let! v24 := deref v9 in Ok (DistUnit_beq (distUnit (VisibilityGroup_minVisibility v24)) STATUTE_MILES)) (
    chk 3899 (let! v25 := deref v9 in Ok (DistUnit_beq (distUnit (VisibilityGroup_maxVisibility v25)) STATUTE_MILES)) (
    chk 3900 (let! v26 := deref v9 in Ok (Distance_isReported (VisibilityGroup_maxVisibility v26))) (
    chk 3901 (let! v27 := deref v9 in Ok (has_value (Distance_distance (VisibilityGroup_maxVisibility v27)))) (
    chk 3902 (let! v28 := deref v9 in let! v29 := deref (Distance_distance (VisibilityGroup_maxVisibility v28)) in Ok (near v29 (dlit (6) 1) (dlit (1) 200))) (
    chk 3903 (let! v30 := deref v9 in Ok (DistModifier_beq (distModifier (VisibilityGroup_maxVisibility v30)) DM_MORE_THAN)) (
    chk 3905 (let! v31 := deref v9 in let! v32 := (VisibilityGroup_sectorDirections v31) in Ok (N.eqb (N.of_nat (List.length v32)) 0%N)) (
    chk 3906 (let! v33 := deref v9 in Ok (ViTrend_beq (vi_trend v33) Vt_NONE)) (
    chk 3907 (let! v34 := deref v9 in Ok (VisibilityGroup_isValid v34)) (
    None))))))))))))))))))))))))))).

Definition t_VisibilityGroup_parseRmkVisRunwayModifierFractionVariableIntegerFraction : option N :=
    step 3911 ((VisibilityGroup_parse "VIS" RP_RMK md_default)) (fun v1 => 
    chk 3912 (Ok (has_value v1)) (
    step 3914 (let! v2 := deref v1 in VisibilityGroup_append v2 "M1/4V1" RP_RMK md_default) (fun p => let v3 := Some (fst p) in let v4 := snd p in 
    chk 3914 (Ok (AppendResult_beq v4 APPENDED)) (
    step 3916 (let! v5 := deref v3 in VisibilityGroup_append v5 "3/4" RP_RMK md_default) (fun p => let v6 := Some (fst p) in let v7 := snd p in 
    chk 3916 (Ok (AppendResult_beq v7 APPENDED)) (
    step 3918 (let! v8 := deref v6 in VisibilityGroup_append v8 "R22" RP_RMK md_default) (fun p => let v9 := Some (fst p) in let v10 := snd p in 
    chk 3918 (Ok (AppendResult_beq v10 APPENDED)) (
    step 3920 (let! v11 := deref v9 in VisibilityGroup_append v11 "" RP_RMK md_default) (fun p => let v12 := Some (fst p) in let v13 := snd p in 
    chk 3920 (Ok (AppendResult_beq v13 NOT_APPENDED)) (
    chk 3923 (let! v14 := deref v12 in Ok (ViType_beq (vi_type v14) Vi_VARIABLE_RUNWAY)) (
    chk 3924 (let! v15 := deref v12 in Ok (negb (Distance_isReported (VisibilityGroup_visibility v15)))) (
    chk 3925 (let! v16 := deref v12 in Ok (negb (has_value (vi_dir v16)))) (
    chk 3927 (let! v17 := deref v12 in Ok (has_value (vi_rw v17))) (
    chk 3928 (let! v18 := deref v12 in let! v19 := deref (vi_rw v18) in Ok (N.eqb (rNumber v19) 22%N)) (
    chk 3929 (let! v20 := deref v12 in let! v21 := deref (vi_rw v20) in Ok (RwDesignator_beq (rDesignator v21) Rw_NONE)) (
    chk 3931 (let! v22 := deref v12 in Ok (DistUnit_beq (distUnit (VisibilityGroup_minVisibility v22)) STATUTE_MILES)) (
    chk 3932 (let! v23 := deref v12 in Ok (Distance_isReported (VisibilityGroup_minVisibility v23))) (
    chk 3933 (let! v24 := deref v12 in Ok (has_value (Distance_distance (VisibilityGroup_minVisibility v24)))) (
    chk 3934 (let! v25 := deref v12 in let! v26 := deref (Distance_distance (VisibilityGroup_minVisibility v25)) in Ok (near v26 (dlit (1) 4) (dlit (1) 200))) (
    chk 3935 (let! v27 := deref v12 in Ok (DistModifier_beq (distModifier (VisibilityGroup_minVisibility v27)) DM_LESS_THAN)) (
    chk 3937 (let! v28 := deref v12 in Ok (DistUnit_beq (distUnit (VisibilityGroup_maxVisibility v28)) STATUTE_MILES)) (
    chk 3938 (let! v29 := deref v12 in Ok (Distance_isReported (VisibilityGroup_maxVisibility v29))) (
    chk 3939 (let! v30 := deref v12 in Ok (has_value (Distance_distance (VisibilityGroup_maxVisibility v30)))) (
    chk 3940 (let! v31 := deref v12 in let! v32 := deref (Distance_distance (VisibilityGroup_maxVisibility v31)) in Ok (near v32 (dlit (7) 4) (dlit (1) 200))) (
    chk 3941 (let! v33 := deref v12 in Ok (DistModifier_beq (distModifier (VisibilityGroup_maxVisibility v33)) DM_NONE)) (
    chk 3943 (let! v34 := deref v12 in let! v35 := (VisibilityGroup_sectorDirections v34) in Ok (N.eqb (N.of_nat (List.length v35)) 0%N)) (
    chk 3944 (let! v36 := deref v12 in Ok (ViTrend_beq (vi_trend v36) Vt_NONE)) (
    chk 3945 (let! v37 := deref v12 in Ok (VisibilityGroup_isValid v37)) (
    None))))))))))))))))))))))))))))).

Definition t_VisibilityGroup_parseRmkVisRunwayModifierIntegerFractionVariableModifierIntegerFraction : option N :=
    step 3949 ((VisibilityGroup_parse "VIS" RP_RMK md_default)) (fun v1 => 
    chk 3950 (Ok (has_value v1)) (
    step 3952 (let! v2 := deref v1 in VisibilityGroup_append v2 "M1" RP_RMK md_default) (fun p => let v3 := Some (fst p) in let v4 := snd p in 
    chk 3952 (Ok (AppendResult_beq v4 APPENDED)) (
    step 3954 (let! v5 := deref v3 in VisibilityGroup_append v5 "1/4VP1" RP_RMK md_default) (fun p => let v6 := Some (fst p) in let v7 := snd p in 
    chk 3954 (Ok (AppendResult_beq v7 APPENDED)) (
    step 3956 (let! v8 := deref v6 in VisibilityGroup_append v8 "3/4" RP_RMK md_default) (fun p => let v9 := Some (fst p) in let v10 := snd p in 
    chk 3956 (Ok (AppendResult_beq v10 APPENDED)) (
    step 3958 (let! v11 := deref v9 in VisibilityGroup_append v11 "R22" RP_RMK md_default) (fun p => let v12 := Some (fst p) in let v13 := snd p in 
    chk 3958 (Ok (AppendResult_beq v13 APPENDED)) (
    step 3960 (let! v14 := deref v12 in VisibilityGroup_append v14 "" RP_RMK md_default) (fun p => let v15 := Some (fst p) in let v16 := snd p in 
    chk 3960 (Ok (AppendResult_beq v16 NOT_APPENDED)) (
    chk 3963 (let! v17 := deref v15 in Ok (ViType_beq (vi_type v17) Vi_VARIABLE_RUNWAY)) (
    chk 3964 (let! v18 := deref v15 in Ok (negb (Distance_isReported (VisibilityGroup_visibility v18)))) (
    chk 3965 (let! v19 := deref v15 in Ok (negb (has_value (vi_dir v19)))) (
    chk 3967 (let! v20 := deref v15 in Ok (has_value (vi_rw v20))) (
    chk 3968 (let! v21 := deref v15 in let! v22 := deref (vi_rw v21) in Ok (N.eqb (rNumber v22) 22%N)) (
    chk 3969 (let! v23 := deref v15 in let! v24 := deref (vi_rw v23) in Ok (RwDesignator_beq (rDesignator v24) Rw_NONE)) (
    chk 3971 (let! v25 := deref v15 in Ok (DistUnit_beq (distUnit (VisibilityGroup_minVisibility v25)) STATUTE_MILES)) (
    chk 3972 (let! v26 := deref v15 in Ok (Distance_isReported (VisibilityGroup_minVisibility v26))) (
    chk 3973 (let! v27 := deref v15 in Ok (has_value (Distance_distance (VisibilityGroup_minVisibility v27)))) (
    chk 3974 (let! v28 := deref v15 in let! v29 := deref (Distance_distance (VisibilityGroup_minVisibility v28)) in Ok (near v29 (dlit (5) 4) (dlit (1) 200))) (
    chk 3975 (let! v30 := deref v15 in Ok (DistModifier_beq (distModifier (VisibilityGroup_minVisibility v30)) DM_LESS_THAN)) (
    chk 3977 (let! v31 := deref v15 in Ok (DistUnit_beq (distUnit (VisibilityGroup_maxVisibility v31)) STATUTE_MILES)) (
    chk 3978 (let! v32 := deref v15 in Ok (Distance_isReported (VisibilityGroup_maxVisibility v32))) (
    chk 3979 (let! v33 := deref v15 in Ok (has_value (Distance_distance (VisibilityGroup_maxVisibility v33)))) (
    chk 3980 (let! v34 := deref v15 in let! v35 := deref (Distance_distance (VisibilityGroup_maxVisibility v34)) in Ok (near v35 (dlit (7) 4) (dlit (1) 200))) (
    chk 3981 (let! v36 := deref v15 in Ok (DistModifier_beq (distModifier (VisibilityGroup_maxVisibility v36)) DM_MORE_THAN)) (
    chk 3983 (let! v37 := deref v15 in let! v38 := (VisibilityGroup_sectorDirections v37) in Ok (N.eqb (N.of_nat (List.length v38)) 0%N)) (
    chk 3984 (let! v39 := deref v15 in Ok (ViTrend_beq (vi_trend v39) Vt_NONE)) (
    chk 3985 (let! v40 := deref v15 in Ok (VisibilityGroup_isValid v40)) (
    None))))))))))))))))))))))))))))))).

Definition t_VisibilityGroup_parseRmkVisRunwaylNonVariableIntegerFraction : option N :=
    step 3997 ((VisibilityGroup_parse "VIS" RP_RMK md_default)) (fun v1 => 
    chk 3998 (Ok (has_value v1)) (
    step 4000 (let! v2 := deref v1 in VisibilityGroup_append v2 "1" RP_RMK md_default) (fun p => let v3 := Some (fst p) in let v4 := snd p in 
    chk 4000 (Ok (AppendResult_beq v4 APPENDED)) (
    step 4001 (let! v5 := deref v3 in VisibilityGroup_append v5 "3/4" RP_RMK md_default) (fun p => let v6 := Some (fst p) in let v7 := snd p in 
    chk 4001 (Ok (AppendResult_beq v7 APPENDED)) (
    step 4002 (let! v8 := deref v6 in VisibilityGroup_append v8 "R22" RP_RMK md_default) (fun p => let v9 := Some (fst p) in let v10 := snd p in 
    chk 4002 (Ok (AppendResult_beq v10 APPENDED)) (
    step 4003 (let! v11 := deref v9 in VisibilityGroup_append v11 "" RP_RMK md_default) (fun p => let v12 := Some (fst p) in let v13 := snd p in 
    chk 4003 (Ok (AppendResult_beq v13 NOT_APPENDED)) (
    chk 4005 (let! v14 := deref v12 in Ok (ViType_beq (vi_type v14) Vi_RUNWAY)) (
    chk 4006 (let! v15 := deref v12 in Ok (negb (has_value (vi_dir v15)))) (
    chk 4008 (let! v16 := deref v12 in Ok (has_value (vi_rw v16))) (
    chk 4009 (let! v17 := deref v12 in let! v18 := deref (vi_rw v17) in Ok (N.eqb (rNumber v18) 22%N)) (
    chk 4010 (let! v19 := deref v12 in let! v20 := deref (vi_rw v19) in Ok (RwDesignator_beq (rDesignator v20) Rw_NONE)) (
    chk 4012 (let! v21 := deref v12 in Ok (DistModifier_beq (distModifier (VisibilityGroup_visibility v21)) DM_NONE)) (
    chk 4013 (let! v22 := deref v12 in Ok (Distance_isReported (VisibilityGroup_visibility v22))) (
    chk 4014 (let! v23 := deref v12 in Ok (has_value (Distance_distance (VisibilityGroup_visibility v23)))) (
    chk 4015 (let! v24 := deref v12 in let! v25 := deref (Distance_distance (VisibilityGroup_visibility v24)) in Ok (near v25 (dlit (7) 4) (dlit (1) 200))) (
    chk 4016 (let! v26 := deref v12 in Ok (DistUnit_beq (distUnit (VisibilityGroup_visibility v26)) STATUTE_MILES)) (
    chk 4018 (let! v27 := deref v12 in Ok (negb (Distance_isReported (VisibilityGroup_minVisibility v27)))) (
    chk 4019 (let! v28 := deref v12 in Ok (negb (Distance_isReported (VisibilityGroup_maxVisibility v28)))) (
    chk 4020 (let! v29 := deref v12 in let! v30 := (VisibilityGroup_sectorDirections v29) in Ok (N.eqb (N.of_nat (List.length v30)) 0%N)) (
    chk 4021 (let! v31 := deref v12 in Ok (ViTrend_beq (vi_trend v31) Vt_NONE)) (
    chk 4022 (let! v32 := deref v12 in Ok (VisibilityGroup_isValid v32)) (
    None))))))))))))))))))))))))).

Definition t_VisibilityGroup_parseRmkVisRunwayNonVariableInteger : option N :=
    step 4026 ((VisibilityGroup_parse "VIS" RP_RMK md_default)) (fun v1 => 
    chk 4027 (Ok (has_value v1)) (
    step 4029 (let! v2 := deref v1 in VisibilityGroup_append v2 "2" RP_RMK md_default) (fun p => let v3 := Some (fst p) in let v4 := snd p in 
    chk 4029 (Ok (AppendResult_beq v4 APPENDED)) (
    step 4030 (let! v5 := deref v3 in VisibilityGroup_append v5 "R22" RP_RMK md_default) (fun p => let v6 := Some (fst p) in let v7 := snd p in 
    chk 4030 (Ok (AppendResult_beq v7 APPENDED)) (
    step 4031 (let! v8 := deref v6 in VisibilityGroup_append v8 "" RP_RMK md_default) (fun p => let v9 := Some (fst p) in let v10 := snd p in 
    chk 4031 (Ok (AppendResult_beq v10 NOT_APPENDED)) (
    chk 4033 (let! v11 := deref v9 in Ok (ViType_beq (vi_type v11) Vi_RUNWAY)) (
    chk 4034 (let! v12 := deref v9 in Ok (negb (has_value (vi_dir v12)))) (
    chk 4036 (let! v13 := deref v9 in Ok (has_value (vi_rw v13))) (
    chk 4037 (let! v14 := deref v9 in let! v15 := deref (vi_rw v14) in Ok (N.eqb (rNumber v15) 22%N)) (
    chk 4038 (let! v16 := deref v9 in let! v17 := deref (vi_rw v16) in Ok (RwDesignator_beq (rDesignator v17) Rw_NONE)) (
    chk 4040 (let! v18 := deref v9 in Ok (DistModifier_beq (distModifier (VisibilityGroup_visibility v18)) DM_NONE)) (
    chk 4041 (let! v19 := deref v9 in Ok (Distance_isReported (VisibilityGroup_visibility v19))) (
    chk 4042 (let! v20 := deref v9 in Ok (has_value (Distance_distance (VisibilityGroup_visibility v20)))) (
    chk 4043 (let! v21 := deref v9 in let! v22 := deref (Distance_distance (VisibilityGroup_visibility v21)) in Ok (near v22 (dlit (2) 1) (dlit (1) 200))) (
    chk 4044 (let! v23 := deref v9 in Ok (DistUnit_beq (distUnit (VisibilityGroup_visibility v23)) STATUTE_MILES)) (
    chk 4046 (let! v24 := deref v9 in Ok (negb (Distance_isReported (VisibilityGroup_minVisibility v24)))) (
    chk 4047 (let! v25 := deref v9 in Ok (negb (Distance_isReported (VisibilityGroup_maxVisibility v25)))) (
    chk 4048 (let! v26 := deref v9 in let! v27 := (VisibilityGroup_sectorDirections v26) in Ok (N.eqb (N.of_nat (List.length v27)) 0%N)) (
    chk 4049 (let! v28 := deref v9 in Ok (ViTrend_beq (vi_trend v28) Vt_NONE)) (
    chk 4050 (let! v29 := deref v9 in Ok (VisibilityGroup_isValid v29)) (
    None))))))))))))))))))))))).

Definition t_VisibilityGroup_parseRmkVisRunwayNonVariableFraction : option N :=
    step 4054 ((VisibilityGroup_parse "VIS" RP_RMK md_default)) (fun v1 => 
    chk 4055 (Ok (has_value v1)) (
    step 4057 (let! v2 := deref v1 in VisibilityGroup_append v2 "3/4" RP_RMK md_default) (fun p => let v3 := Some (fst p) in let v4 := snd p in 
    chk 4057 (Ok (AppendResult_beq v4 APPENDED)) (
    step 4058 (let! v5 := deref v3 in VisibilityGroup_append v5 "R22" RP_RMK md_default) (fun p => let v6 := Some (fst p) in let v7 := snd p in 
    chk 4058 (Ok (AppendResult_beq v7 APPENDED)) (
    step 4059 (let! v8 := deref v6 in VisibilityGroup_append v8 "" RP_RMK md_default) (fun p => let v9 := Some (fst p) in let v10 := snd p in 
    chk 4059 (Ok (AppendResult_beq v10 NOT_APPENDED)) (
    chk 4061 (let! v11 := deref v9 in Ok (ViType_beq (vi_type v11) Vi_RUNWAY)) (
    chk 4062 (let! v12 := deref v9 in Ok (negb (has_value (vi_dir v12)))) (
    chk 4064 (let! v13 := deref v9 in Ok (has_value (vi_rw v13))) (
    chk 4065 (let! v14 := deref v9 in let! v15 := deref (vi_rw v14) in Ok (N.eqb (rNumber v15) 22%N)) (
    chk 4066 (let! v16 := deref v9 in let! v17 := deref (vi_rw v16) in Ok (RwDesignator_beq (rDesignator v17) Rw_NONE)) (
    chk 4068 (let! v18 := deref v9 in Ok (DistModifier_beq (distModifier (VisibilityGroup_visibility v18)) DM_NONE)) (
    chk 4069 (let! v19 := deref v9 in Ok (Distance_isReported (VisibilityGroup_visibility v19))) (
    chk 4070 (let! v20 := deref v9 in Ok (has_value (Distance_distance (VisibilityGroup_visibility v20)))) (
    chk 4071 (let! v21 := deref v9 in let! v22 := deref (Distance_distance (VisibilityGroup_visibility v21)) in Ok (near v22 (dlit (3) 4) (dlit (1) 200))) (
    chk 4072 (let! v23 := deref v9 in Ok (DistUnit_beq (distUnit (VisibilityGroup_visibility v23)) STATUTE_MILES)) (
    chk 4074 (let! v24 := deref v9 in Ok (negb (Distance_isReported (VisibilityGroup_minVisibility v24)))) (
    chk 4075 (let! v25 := deref v9 in Ok (negb (Distance_isReported (VisibilityGroup_maxVisibility v25)))) (
    chk 4076 (let! v26 := deref v9 in let! v27 := (VisibilityGroup_sectorDirections v26) in Ok (N.eqb (N.of_nat (List.length v27)) 0%N)) (
    chk 4077 (let! v28 := deref v9 in Ok (ViTrend_beq (vi_trend v28) Vt_NONE)) (
    chk 4078 (let! v29 := deref v9 in Ok (VisibilityGroup_isValid v29)) (
    None))))))))))))))))))))))).

Definition t_VisibilityGroup_parseRmkVisRunwayVisAppendOther : option N :=
    step 4082 ((VisibilityGroup_parse "VIS" RP_RMK md_default)) (fun v1 => 
    chk 4083 (Ok (has_value v1)) (
    step 4084 (let! v2 := deref v1 in VisibilityGroup_append v2 "1/2" RP_RMK md_default) (fun p => let v3 := Some (fst p) in let v4 := snd p in 
    chk 4084 (Ok (AppendResult_beq v4 APPENDED)) (
    step 4085 (let! v5 := deref v3 in VisibilityGroup_append v5 "RWY19" RP_RMK md_default) (fun p => let v6 := Some (fst p) in let v7 := snd p in 
    chk 4085 (Ok (AppendResult_beq v7 APPENDED)) (
    step 4087 (let! v8 := deref v6 in VisibilityGroup_append v8 "NW" RP_RMK md_default) (fun p => let v9 := Some (fst p) in let v10 := snd p in 
    chk 4087 (Ok (AppendResult_beq v10 NOT_APPENDED)) (
    step 4088 (let! v11 := deref v9 in VisibilityGroup_append v11 "1V3" RP_RMK md_default) (fun p => let v12 := Some (fst p) in let v13 := snd p in 
    chk 4088 (Ok (AppendResult_beq v13 NOT_APPENDED)) (
    step 4089 (let! v14 := deref v12 in VisibilityGroup_append v14 "1/2V3" RP_RMK md_default) (fun p => let v15 := Some (fst p) in let v16 := snd p in 
    chk 4089 (Ok (AppendResult_beq v16 NOT_APPENDED)) (
    step 4090 (let! v17 := deref v15 in VisibilityGroup_append v17 "2" RP_RMK md_default) (fun p => let v18 := Some (fst p) in let v19 := snd p in 
    chk 4090 (Ok (AppendResult_beq v19 NOT_APPENDED)) (
    step 4091 (let! v20 := deref v18 in VisibilityGroup_append v20 "RWY22" RP_RMK md_default) (fun p => let v21 := Some (fst p) in let v22 := snd p in 
    chk 4091 (Ok (AppendResult_beq v22 NOT_APPENDED)) (
    None)))))))))))))))).

Definition t_VisibilityGroup_parseRmkVisRunwayNonVariableMeters : option N :=
    step 4095 ((VisibilityGroup_parse "VIS" RP_RMK md_default)) (fun v1 => 
    chk 4096 (Ok (has_value v1)) (
    step 4097 (let! v2 := deref v1 in VisibilityGroup_append v2 "1500" RP_RMK md_default) (fun p => let v3 := Some (fst p) in let v4 := snd p in 
    chk 4097 (Ok (AppendResult_beq v4 APPENDED)) (
    step 4098 (let! v5 := deref v3 in VisibilityGroup_append v5 "R22" RP_RMK md_default) (fun p => let v6 := Some (fst p) in let v7 := snd p in 
    chk 4098 (Ok (AppendResult_beq v7 APPENDED)) (
    step 4099 (let! v8 := deref v6 in VisibilityGroup_append v8 "" RP_RMK md_default) (fun p => let v9 := Some (fst p) in let v10 := snd p in 
    chk 4099 (Ok (AppendResult_beq v10 NOT_APPENDED)) (
    chk 4101 (let! v11 := deref v9 in Ok (ViType_beq (vi_type v11) Vi_RUNWAY)) (
    chk 4102 (let! v12 := deref v9 in Ok (negb (has_value (vi_dir v12)))) (
    chk 4104 (let! v13 := deref v9 in Ok (has_value (vi_rw v13))) (
    chk 4105 (let! v14 := deref v9 in let! v15 := deref (vi_rw v14) in Ok (N.eqb (rNumber v15) 22%N)) (
    chk 4106 (let! v16 := deref v9 in let! v17 := deref (vi_rw v16) in Ok (RwDesignator_beq (rDesignator v17) Rw_NONE)) (
    chk 4108 (let! v18 := deref v9 in Ok (DistModifier_beq (distModifier (VisibilityGroup_visibility v18)) DM_NONE)) (
    chk 4109 (let! v19 := deref v9 in Ok (Distance_isReported (VisibilityGroup_visibility v19))) (
    chk 4110 (let! v20 := deref v9 in Ok (has_value (Distance_distance (VisibilityGroup_visibility v20)))) (
    chk 4111 (let! v21 := deref v9 in let! v22 := deref (Distance_distance (VisibilityGroup_visibility v21)) in Ok (near v22 (dlit (1500) 1) (dlit (1) 200))) (
    chk 4112 (let! v23 := deref v9 in Ok (DistUnit_beq (distUnit (VisibilityGroup_visibility v23)) METERS)) (
    chk 4114 (let! v24 := deref v9 in Ok (negb (Distance_isReported (VisibilityGroup_minVisibility v24)))) (
    chk 4115 (let! v25 := deref v9 in Ok (negb (Distance_isReported (VisibilityGroup_maxVisibility v25)))) (
    chk 4116 (let! v26 := deref v9 in let! v27 := (VisibilityGroup_sectorDirections v26) in Ok (N.eqb (N.of_nat (List.length v27)) 0%N)) (
    chk 4117 (let! v28 := deref v9 in Ok (ViTrend_beq (vi_trend v28) Vt_NONE)) (
    chk 4118 (let! v29 := deref v9 in Ok (VisibilityGroup_isValid v29)) (
    None))))))))))))))))))))))).

Definition t_VisibilityGroup_parseRmkVisRunwayNonVariableMeters9999 : option N :=
    step 4122 ((VisibilityGroup_parse "VIS" RP_RMK md_default)) (fun v1 => 
    chk 4123 (Ok (has_value v1)) (
    step 4124 (let! v2 := deref v1 in VisibilityGroup_append v2 "9999" RP_RMK md_default) (fun p => let v3 := Some (fst p) in let v4 := snd p in 
    chk 4124 (Ok (AppendResult_beq v4 APPENDED)) (
    step 4125 (let! v5 := deref v3 in VisibilityGroup_append v5 "R22" RP_RMK md_default) (fun p => let v6 := Some (fst p) in let v7 := snd p in 
    chk 4125 (Ok (AppendResult_beq v7 APPENDED)) (
    step 4126 (let! v8 := deref v6 in VisibilityGroup_append v8 "" RP_RMK md_default) (fun p => let v9 := Some (fst p) in let v10 := snd p in 
    chk 4126 (Ok (AppendResult_beq v10 NOT_APPENDED)) (
    chk 4128 (let! v11 := deref v9 in Ok (ViType_beq (vi_type v11) Vi_RUNWAY)) (
    chk 4129 (let! v12 := deref v9 in Ok (negb (has_value (vi_dir v12)))) (
    chk 4131 (let! v13 := deref v9 in Ok (has_value (vi_rw v13))) (
    chk 4132 (let! v14 := deref v9 in let! v15 := deref (vi_rw v14) in Ok (N.eqb (rNumber v15) 22%N)) (
    chk 4133 (let! v16 := deref v9 in let! v17 := deref (vi_rw v16) in Ok (RwDesignator_beq (rDesignator v17) Rw_NONE)) (
    chk 4135 (let! v18 := deref v9 in Ok (DistModifier_beq (distModifier (VisibilityGroup_visibility v18)) DM_MORE_THAN)) (
    chk 4136 (let! v19 := deref v9 in Ok (Distance_isReported (VisibilityGroup_visibility v19))) (
    chk 4137 (let! v20 := deref v9 in Ok (has_value (Distance_distance (VisibilityGroup_visibility v20)))) (
    chk 4138 (let! v21 := deref v9 in let! v22 := deref (Distance_distance (VisibilityGroup_visibility v21)) in Ok (near v22 (dlit (10000) 1) (dlit (1) 200))) (
    chk 4139 (let! v23 := deref v9 in Ok (DistUnit_beq (distUnit (VisibilityGroup_visibility v23)) METERS)) (
    chk 4141 (let! v24 := deref v9 in Ok (negb (Distance_isReported (VisibilityGroup_minVisibility v24)))) (
    chk 4142 (let! v25 := deref v9 in Ok (negb (Distance_isReported (VisibilityGroup_maxVisibility v25)))) (
    chk 4143 (let! v26 := deref v9 in let! v27 := (VisibilityGroup_sectorDirections v26) in Ok (N.eqb (N.of_nat (List.length v27)) 0%N)) (
    chk 4144 (let! v28 := deref v9 in Ok (ViTrend_beq (vi_trend v28) Vt_NONE)) (
    chk 4145 (let! v29 := deref v9 in Ok (VisibilityGroup_isValid v29)) (
    None))))))))))))))))))))))).

Definition t_VisibilityGroup_parseRmkVisRunwayNonVariableModifierIntegerFraction : option N :=
    step 4149 ((VisibilityGroup_parse "VIS" RP_RMK md_default)) (fun v1 => 
    chk 4150 (Ok (has_value v1)) (
    step 4152 (let! v2 := deref v1 in VisibilityGroup_append v2 "M1" RP_RMK md_default) (fun p => let v3 := Some (fst p) in let v4 := snd p in 
    chk 4152 (Ok (AppendResult_beq v4 APPENDED)) (
    step 4154 (let! v5 := deref v3 in VisibilityGroup_append v5 "1/4" RP_RMK md_default) (fun p => let v6 := Some (fst p) in let v7 := snd p in 
    chk 4154 (Ok (AppendResult_beq v7 APPENDED)) (
    step 4156 (let! v8 := deref v6 in VisibilityGroup_append v8 "R22" RP_RMK md_default) (fun p => let v9 := Some (fst p) in let v10 := snd p in 
    chk 4156 (Ok (AppendResult_beq v10 APPENDED)) (
    step 4157 (let! v11 := deref v9 in VisibilityGroup_append v11 "" RP_RMK md_default) (fun p => let v12 := Some (fst p) in let v13 := snd p in 
    chk 4157 (Ok (AppendResult_beq v13 NOT_APPENDED)) (
    chk 4160 (let! v14 := deref v12 in Ok (ViType_beq (vi_type v14) Vi_RUNWAY)) (
    chk 4161 (let! v15 := deref v12 in Ok (negb (has_value (vi_dir v15)))) (
    chk 4163 (let! v16 := deref v12 in Ok (has_value (vi_rw v16))) (
    chk 4164 (let! v17 := deref v12 in let! v18 := deref (vi_rw v17) in Ok (N.eqb (rNumber v18) 22%N)) (
    chk 4165 (let! v19 := deref v12 in let! v20 := deref (vi_rw v19) in Ok (RwDesignator_beq (rDesignator v20) Rw_NONE)) (
    chk 4167 (let! v21 := deref v12 in Ok (DistModifier_beq (distModifier (VisibilityGroup_visibility v21)) DM_LESS_THAN)) (
    chk 4168 (let! v22 := deref v12 in Ok (Distance_isReported (VisibilityGroup_visibility v22))) (
    chk 4169 (let! v23 := deref v12 in Ok (has_value (Distance_distance (VisibilityGroup_visibility v23)))) (
    chk 4170 (let! v24 := deref v12 in let! v25 := deref (Distance_distance (VisibilityGroup_visibility v24)) in Ok (near v25 (dlit (5) 4) (dlit (1) 200))) (
    chk 4171 (let! v26 := deref v12 in Ok (DistUnit_beq (distUnit (VisibilityGroup_visibility v26)) STATUTE_MILES)) (
    chk 4173 (let! v27 := deref v12 in Ok (negb (Distance_isReported (VisibilityGroup_minVisibility v27)))) (
    chk 4174 (let! v28 := deref v12 in Ok (negb (Distance_isReported (VisibilityGroup_maxVisibility v28)))) (
    chk 4175 (let! v29 := deref v12 in let! v30 := (VisibilityGroup_sectorDirections v29) in Ok (N.eqb (N.of_nat (List.length v30)) 0%N)) (
    chk 4176 (let! v31 := deref v12 in Ok (ViTrend_beq (vi_trend v31) Vt_NONE)) (
    chk 4177 (let! v32 := deref v12 in Ok (VisibilityGroup_isValid v32)) (
    None))))))))))))))))))))))))).

Definition t_VisibilityGroup_parseRmkVisRunwayNonVariableModifierInteger : option N :=
    step 4181 ((VisibilityGroup_parse "VIS" RP_RMK md_default)) (fun v1 => 
    chk 4182 (Ok (has_value v1)) (
    step 4184 (let! v2 := deref v1 in VisibilityGroup_append v2 "P6" RP_RMK md_default) (fun p => let v3 := Some (fst p) in let v4 := snd p in 
    chk 4184 (Ok (AppendResult_beq v4 APPENDED)) (
    step 4186 (let! v5 := deref v3 in VisibilityGroup_append v5 "R22" RP_RMK md_default) (fun p => let v6 := Some (fst p) in let v7 := snd p in 
    chk 4186 (Ok (AppendResult_beq v7 APPENDED)) (
    step 4187 (let! v8 := deref v6 in VisibilityGroup_append v8 "" RP_RMK md_default) (fun p => let v9 := Some (fst p) in let v10 := snd p in 
    chk 4187 (Ok (AppendResult_beq v10 NOT_APPENDED)) (
    chk 4190 (let! v11 := deref v9 in Ok (ViType_beq (vi_type v11) Vi_RUNWAY)) (
    chk 4191 (let! v12 := deref v9 in Ok (negb (has_value (vi_dir v12)))) (
    chk 4193 (let! v13 := deref v9 in Ok (has_value (vi_rw v13))) (
    chk 4194 (let! v14 := deref v9 in let! v15 := deref (vi_rw v14) in Ok (N.eqb (rNumber v15) 22%N)) (
    chk 4195 (let! v16 := deref v9 in let! v17 := deref (vi_rw v16) in Ok (RwDesignator_beq (rDesignator v17) Rw_NONE)) (
    chk 4197 (let! v18 := deref v9 in Ok (DistModifier_beq (distModifier (VisibilityGroup_visibility v18)) DM_MORE_THAN)) (
    chk 4198 (let! v19 := deref v9 in Ok (Distance_isReported (VisibilityGroup_visibility v19))) (
    chk 4199 (let! v20 := deref v9 in Ok (has_value (Distance_distance (VisibilityGroup_visibility v20)))) (
    chk 4200 (let! v21 := deref v9 in let! v22 := deref (Distance_distance (VisibilityGroup_visibility v21)) in Ok (near v22 (dlit (6) 1) (dlit (1) 200))) (
    chk 4201 (let! v23 := deref v9 in Ok (DistUnit_beq (distUnit (VisibilityGroup_visibility v23)) STATUTE_MILES)) (
    chk 4203 (let! v24 := deref v9 in Ok (negb (Distance_isReported (VisibilityGroup_minVisibility v24)))) (
    chk 4204 (let! v25 := deref v9 in Ok (negb (Distance_isReported (VisibilityGroup_maxVisibility v25)))) (
    chk 4205 (let! v26 := deref v9 in let! v27 := (VisibilityGroup_sectorDirections v26) in Ok (N.eqb (N.of_nat (List.length v27)) 0%N)) (
    chk 4206 (let! v28 := deref v9 in Ok (ViTrend_beq (vi_trend v28) Vt_NONE)) (
    chk 4207 (let! v29 := deref v9 in Ok (VisibilityGroup_isValid v29)) (
    None))))))))))))))))))))))).

Definition t_VisibilityGroup_parseRmkVisRunwayNonVariableModifierFraction : option N :=
    step 4211 ((VisibilityGroup_parse "VIS" RP_RMK md_default)) (fun v1 => 
    chk 4212 (Ok (has_value v1)) (
    step 4214 (let! v2 := deref v1 in VisibilityGroup_append v2 "M1/16" RP_RMK md_default) (fun p => let v3 := Some (fst p) in let v4 := snd p in 
    chk 4214 (Ok (AppendResult_beq v4 APPENDED)) (
    step 4216 (let! v5 := deref v3 in VisibilityGroup_append v5 "R22" RP_RMK md_default) (fun p => let v6 := Some (fst p) in let v7 := snd p in 
    chk 4216 (Ok (AppendResult_beq v7 APPENDED)) (
    step 4217 (let! v8 := deref v6 in VisibilityGroup_append v8 "" RP_RMK md_default) (fun p => let v9 := Some (fst p) in let v10 := snd p in 
    chk 4217 (Ok (AppendResult_beq v10 NOT_APPENDED)) (
    chk 4220 (let! v11 := deref v9 in Ok (ViType_beq (vi_type v11) Vi_RUNWAY)) (
    chk 4221 (let! v12 := deref v9 in Ok (negb (has_value (vi_dir v12)))) (
    chk 4223 (let! v13 := deref v9 in Ok (has_value (vi_rw v13))) (
    chk 4224 (let! v14 := deref v9 in let! v15 := deref (vi_rw v14) in Ok (N.eqb (rNumber v15) 22%N)) (
    chk 4225 (let! v16 := deref v9 in let! v17 := deref (vi_rw v16) in Ok (RwDesignator_beq (rDesignator v17) Rw_NONE)) (
    chk 4227 (let! v18 := deref v9 in Ok (DistModifier_beq (distModifier (VisibilityGroup_visibility v18)) DM_LESS_THAN)) (
    chk 4228 (let! v19 := deref v9 in Ok (Distance_isReported (VisibilityGroup_visibility v19))) (
    chk 4229 (let! v20 := deref v9 in Ok (has_value (Distance_distance (VisibilityGroup_visibility v20)))) (
    chk 4230 (let! v21 := deref v9 in let! v22 := deref (Distance_distance (VisibilityGroup_visibility v21)) in Ok (near v22 (dlit (1) 16) (dlit (1) 200))) (
    chk 4231 (let! v23 := deref v9 in Ok (DistUnit_beq (distUnit (VisibilityGroup_visibility v23)) STATUTE_MILES)) (
    chk 4233 (let! v24 := deref v9 in Ok (negb (Distance_isReported (VisibilityGroup_minVisibility v24)))) (
    chk 4234 (let! v25 := deref v9 in Ok (negb (Distance_isReported (VisibilityGroup_maxVisibility v25)))) (
    chk 4235 (let! v26 := deref v9 in let! v27 := (VisibilityGroup_sectorDirections v26) in Ok (N.eqb (N.of_nat (List.length v27)) 0%N)) (
    chk 4236 (let! v28 := deref v9 in Ok (ViTrend_beq (vi_trend v28) Vt_NONE)) (
    chk 4237 (let! v29 := deref v9 in Ok (VisibilityGroup_isValid v29)) (
    None))))))))))))))))))))))).

Definition t_VisibilityGroup_parseRmkVisRunwayRWithoutDesignator : option N :=
    step 4248 ((VisibilityGroup_parse "VIS" RP_RMK md_default)) (fun v1 => 
    chk 4249 (Ok (has_value v1)) (
    step 4250 (let! v2 := deref v1 in VisibilityGroup_append v2 "3/4" RP_RMK md_default) (fun p => let v3 := Some (fst p) in let v4 := snd p in 
    chk 4250 (Ok (AppendResult_beq v4 APPENDED)) (
    step 4251 (let! v5 := deref v3 in VisibilityGroup_append v5 "R22" RP_RMK md_default) (fun p => let v6 := Some (fst p) in let v7 := snd p in 
    chk 4251 (Ok (AppendResult_beq v7 APPENDED)) (
    chk 4253 (let! v8 := deref v6 in Ok (ViType_beq (vi_type v8) Vi_RUNWAY)) (
    chk 4255 (let! v9 := deref v6 in Ok (has_value (vi_rw v9))) (
    chk 4256 (let! v10 := deref v6 in let! v11 := deref (vi_rw v10) in Ok (N.eqb (rNumber v11) 22%N)) (
    chk 4257 (let! v12 := deref v6 in let! v13 := deref (vi_rw v12) in Ok (RwDesignator_beq (rDesignator v13) Rw_NONE)) (
    chk 4259 (let! v14 := deref v6 in Ok (VisibilityGroup_isValid v14)) (
    None))))))))))).

Definition t_VisibilityGroup_parseRmkVisRunwayRWithDesignator : option N :=
    step 4263 ((VisibilityGroup_parse "VIS" RP_RMK md_default)) (fun v1 => 
    chk 4264 (Ok (has_value v1)) (
    step 4265 (let! v2 := deref v1 in VisibilityGroup_append v2 "3/4" RP_RMK md_default) (fun p => let v3 := Some (fst p) in let v4 := snd p in 
    chk 4265 (Ok (AppendResult_beq v4 APPENDED)) (
    step 4266 (let! v5 := deref v3 in VisibilityGroup_append v5 "R22R" RP_RMK md_default) (fun p => let v6 := Some (fst p) in let v7 := snd p in 
    chk 4266 (Ok (AppendResult_beq v7 APPENDED)) (
    chk 4267 (let! v8 := deref v6 in Ok (ViType_beq (vi_type v8) Vi_RUNWAY)) (
    chk 4268 (let! v9 := deref v6 in Ok (has_value (vi_rw v9))) (
    chk 4269 (let! v10 := deref v6 in let! v11 := deref (vi_rw v10) in Ok (N.eqb (rNumber v11) 22%N)) (
    chk 4270 (let! v12 := deref v6 in let! v13 := deref (vi_rw v12) in Ok (RwDesignator_beq (rDesignator v13) Rw_RIGHT)) (
    chk 4271 (let! v14 := deref v6 in Ok (VisibilityGroup_isValid v14)) (
    step 4273 ((VisibilityGroup_parse "VIS" RP_RMK md_default)) (fun v15 => 
    chk 4274 (Ok (has_value v15)) (
    step 4275 (let! v16 := deref v15 in VisibilityGroup_append v16 "3/4" RP_RMK md_default) (fun p => let v17 := Some (fst p) in let v18 := snd p in 
    chk 4275 (Ok (AppendResult_beq v18 APPENDED)) (
    step 4276 (let! v19 := deref v17 in VisibilityGroup_append v19 "R22C" RP_RMK md_default) (fun p => let v20 := Some (fst p) in let v21 := snd p in 
    chk 4276 (Ok (AppendResult_beq v21 APPENDED)) (
    chk 4277 (let! v22 := deref v20 in Ok (ViType_beq (vi_type v22) Vi_RUNWAY)) (
    chk 4278 (let! v23 := deref v20 in Ok (has_value (vi_rw v23))) (
    chk 4279 (let! v24 := deref v20 in let! v25 := deref (vi_rw v24) in Ok (N.eqb (rNumber v25) 22%N)) (
    chk 4280 (let! v26 := deref v20 in let! v27 := deref (vi_rw v26) in Ok (RwDesignator_beq (rDesignator v27) Rw_CENTER)) (
    chk 4281 (let! v28 := deref v20 in Ok (VisibilityGroup_isValid v28)) (
    step 4283 ((VisibilityGroup_parse "VIS" RP_RMK md_default)) (fun v29 => 
    chk 4284 (Ok (has_value v29)) (
    step 4285 (let! v30 := deref v29 in VisibilityGroup_append v30 "3/4" RP_RMK md_default) (fun p => let v31 := Some (fst p) in let v32 := snd p in 
    chk 4285 (Ok (AppendResult_beq v32 APPENDED)) (
    step 4286 (let! v33 := deref v31 in VisibilityGroup_append v33 "R22L" RP_RMK md_default) (fun p => let v34 := Some (fst p) in let v35 := snd p in 
    chk 4286 (Ok (AppendResult_beq v35 APPENDED)) (
    chk 4287 (let! v36 := deref v34 in Ok (ViType_beq (vi_type v36) Vi_RUNWAY)) (
    chk 4288 (let! v37 := deref v34 in Ok (has_value (vi_rw v37))) (
    chk 4289 (let! v38 := deref v34 in let! v39 := deref (vi_rw v38) in Ok (N.eqb (rNumber v39) 22%N)) (
    chk 4290 (let! v40 := deref v34 in let! v41 := deref (vi_rw v40) in Ok (RwDesignator_beq (rDesignator v41) Rw_LEFT)) (
    chk 4291 (let! v42 := deref v34 in Ok (VisibilityGroup_isValid v42)) (
    None))))))))))))))))))))))))))))))))).

Definition t_VisibilityGroup_parseRmkVisRunwayRwyWithoutDesignator : option N :=
    step 4295 ((VisibilityGroup_parse "VIS" RP_RMK md_default)) (fun v1 => 
    chk 4296 (Ok (has_value v1)) (
    step 4297 (let! v2 := deref v1 in VisibilityGroup_append v2 "3/4" RP_RMK md_default) (fun p => let v3 := Some (fst p) in let v4 := snd p in 
    chk 4297 (Ok (AppendResult_beq v4 APPENDED)) (
    step 4298 (let! v5 := deref v3 in VisibilityGroup_append v5 "RWY22" RP_RMK md_default) (fun p => let v6 := Some (fst p) in let v7 := snd p in 
    chk 4298 (Ok (AppendResult_beq v7 APPENDED)) (
    chk 4300 (let! v8 := deref v6 in Ok (ViType_beq (vi_type v8) Vi_RUNWAY)) (
    chk 4302 (let! v9 := deref v6 in Ok (has_value (vi_rw v9))) (
    chk 4303 (let! v10 := deref v6 in let! v11 := deref (vi_rw v10) in Ok (N.eqb (rNumber v11) 22%N)) (
    chk 4304 (let! v12 := deref v6 in let! v13 := deref (vi_rw v12) in Ok (RwDesignator_beq (rDesignator v13) Rw_NONE)) (
    chk 4306 (let! v14 := deref v6 in Ok (VisibilityGroup_isValid v14)) (
    None))))))))))).

Definition t_VisibilityGroup_parseRmkVisRunwayRwyWithDesignator : option N :=
    step 4310 ((VisibilityGroup_parse "VIS" RP_RMK md_default)) (fun v1 => 
    chk 4311 (Ok (has_value v1)) (
    step 4312 (let! v2 := deref v1 in VisibilityGroup_append v2 "3/4" RP_RMK md_default) (fun p => let v3 := Some (fst p) in let v4 := snd p in 
    chk 4312 (Ok (AppendResult_beq v4 APPENDED)) (
    step 4313 (let! v5 := deref v3 in VisibilityGroup_append v5 "RWY22R" RP_RMK md_default) (fun p => let v6 := Some (fst p) in let v7 := snd p in 
    chk 4313 (Ok (AppendResult_beq v7 APPENDED)) (
    chk 4314 (let! v8 := deref v6 in Ok (ViType_beq (vi_type v8) Vi_RUNWAY)) (
    chk 4315 (let! v9 := deref v6 in Ok (has_value (vi_rw v9))) (
    chk 4316 (let! v10 := deref v6 in let! v11 := deref (vi_rw v10) in Ok (N.eqb (rNumber v11) 22%N)) (
    chk 4317 (let! v12 := deref v6 in let! v13 := deref (vi_rw v12) in Ok (RwDesignator_beq (rDesignator v13) Rw_RIGHT)) (
    chk 4318 (let! v14 := deref v6 in Ok (VisibilityGroup_isValid v14)) (
    step 4320 ((VisibilityGroup_parse "VIS" RP_RMK md_default)) (fun v15 => 
    chk 4321 (Ok (has_value v15)) (
    step 4322 (let! v16 := deref v15 in VisibilityGroup_append v16 "3/4" RP_RMK md_default) (fun p => let v17 := Some (fst p) in let v18 := snd p in 
    chk 4322 (Ok (AppendResult_beq v18 APPENDED)) (
    step 4323 (let! v19 := deref v17 in VisibilityGroup_append v19 "RWY22C" RP_RMK md_default) (fun p => let v20 := Some (fst p) in let v21 := snd p in 
    chk 4323 (Ok (AppendResult_beq v21 APPENDED)) (
    chk 4324 (let! v22 := deref v20 in Ok (ViType_beq (vi_type v22) Vi_RUNWAY)) (
    chk 4325 (let! v23 := deref v20 in Ok (has_value (vi_rw v23))) (
    chk 4326 (let! v24 := deref v20 in let! v25 := deref (vi_rw v24) in Ok (N.eqb (rNumber v25) 22%N)) (
    chk 4327 (let! v26 := deref v20 in let! v27 := deref (vi_rw v26) in Ok (RwDesignator_beq (rDesignator v27) Rw_CENTER)) (
    chk 4328 (let! v28 := deref v20 in Ok (VisibilityGroup_isValid v28)) (
    step 4330 ((VisibilityGroup_parse "VIS" RP_RMK md_default)) (fun v29 => 
    chk 4331 (Ok (has_value v29)) (
    step 4332 (let! v30 := deref v29 in VisibilityGroup_append v30 "3/4" RP_RMK md_default) (fun p => let v31 := Some (fst p) in let v32 := snd p in 
    chk 4332 (Ok (AppendResult_beq v32 APPENDED)) (
    step 4333 (let! v33 := deref v31 in VisibilityGroup_append v33 "RWY22L" RP_RMK md_default) (fun p => let v34 := Some (fst p) in let v35 := snd p in 
    chk 4333 (Ok (AppendResult_beq v35 APPENDED)) (
    chk 4334 (let! v36 := deref v34 in Ok (ViType_beq (vi_type v36) Vi_RUNWAY)) (
    chk 4335 (let! v37 := deref v34 in Ok (has_value (vi_rw v37))) (
    chk 4336 (let! v38 := deref v34 in let! v39 := deref (vi_rw v38) in Ok (N.eqb (rNumber v39) 22%N)) (
    chk 4337 (let! v40 := deref v34 in let! v41 := deref (vi_rw v40) in Ok (RwDesignator_beq (rDesignator v41) Rw_LEFT)) (
    chk 4338 (let! v42 := deref v34 in Ok (VisibilityGroup_isValid v42)) (
    None))))))))))))))))))))))))))))))))).

Definition t_VisibilityGroup_invalidRunwayVarVisGroupWrongVariableRangeMiles : option N :=
    step 4349 ((VisibilityGroup_parse "VIS" RP_RMK md_default)) (fun v1 => 
    chk 4350 (Ok (has_value v1)) (
    step 4351 (let! v2 := deref v1 in VisibilityGroup_append v2 "1/2V7/16" RP_RMK md_default) (fun p => let v3 := Some (fst p) in let v4 := snd p in 
    chk 4351 (Ok (AppendResult_beq v4 APPENDED)) (
    step 4353 (let! v5 := deref v3 in VisibilityGroup_append v5 "R22" RP_RMK md_default) (fun p => let v6 := Some (fst p) in let v7 := snd p in 
    chk 4353 (Ok (AppendResult_beq v7 APPENDED)) (
    chk 4355 (let! v8 := deref v6 in Ok (negb (VisibilityGroup_isValid v8))) (
    None))))))).

Definition t_VisibilityGroup_invalidRunwayVarVisGroupWrongVariableRangeMeters : option N :=
    step 4359 ((VisibilityGroup_parse "VIS" RP_RMK md_default)) (fun v1 => 
    chk 4360 (Ok (has_value v1)) (
    step 4361 (let! v2 := deref v1 in VisibilityGroup_append v2 "1500V1400" RP_RMK md_default) (fun p => let v3 := Some (fst p) in let v4 := snd p in 
    chk 4361 (Ok (AppendResult_beq v4 APPENDED)) (
    step 4363 (let! v5 := deref v3 in VisibilityGroup_append v5 "R22" RP_RMK md_default) (fun p => let v6 := Some (fst p) in let v7 := snd p in 
    chk 4363 (Ok (AppendResult_beq v7 APPENDED)) (
    chk 4365 (let! v8 := deref v6 in Ok (negb (VisibilityGroup_isValid v8))) (
    None))))))).

Definition t_VisibilityGroup_invalidRunwayVisibilityGroupWrongRunway : option N :=
    step 4369 ((VisibilityGroup_parse "VIS" RP_RMK md_default)) (fun v1 => 
    chk 4370 (Ok (has_value v1)) (
    step 4371 (let! v2 := deref v1 in VisibilityGroup_append v2 "1" RP_RMK md_default) (fun p => let v3 := Some (fst p) in let v4 := snd p in 
    chk 4371 (Ok (AppendResult_beq v4 APPENDED)) (
    step 4372 (let! v5 := deref v3 in VisibilityGroup_append v5 "R88R" RP_RMK md_default) (fun p => let v6 := Some (fst p) in let v7 := snd p in 
    chk 4372 (Ok (AppendResult_beq v7 APPENDED)) (
    step 4373 (let! v8 := deref v6 in VisibilityGroup_append v8 "" RP_RMK md_default) (fun p => let v9 := Some (fst p) in let v10 := snd p in 
    chk 4373 (Ok (AppendResult_beq v10 NOT_APPENDED)) (
    chk 4374 (let! v11 := deref v9 in Ok (has_value (vi_rw v11))) (
    chk 4375 (let! v12 := deref v9 in let! v13 := deref (vi_rw v12) in Ok (negb (Runway_isValid v13))) (
    chk 4376 (let! v14 := deref v9 in Ok (negb (VisibilityGroup_isValid v14))) (
    step 4378 ((VisibilityGroup_parse "VIS" RP_RMK md_default)) (fun v15 => 
    chk 4379 (Ok (has_value v15)) (
    step 4380 (let! v16 := deref v15 in VisibilityGroup_append v16 "1" RP_RMK md_default) (fun p => let v17 := Some (fst p) in let v18 := snd p in 
    chk 4380 (Ok (AppendResult_beq v18 APPENDED)) (
    step 4381 (let! v19 := deref v17 in VisibilityGroup_append v19 "R99C" RP_RMK md_default) (fun p => let v20 := Some (fst p) in let v21 := snd p in 
    chk 4381 (Ok (AppendResult_beq v21 APPENDED)) (
    step 4382 (let! v22 := deref v20 in VisibilityGroup_append v22 "" RP_RMK md_default) (fun p => let v23 := Some (fst p) in let v24 := snd p in 
    chk 4382 (Ok (AppendResult_beq v24 NOT_APPENDED)) (
    chk 4383 (let! v25 := deref v23 in Ok (has_value (vi_rw v25))) (
    chk 4384 (let! v26 := deref v23 in let! v27 := deref (vi_rw v26) in Ok (negb (Runway_isValid v27))) (
    chk 4385 (let! v28 := deref v23 in Ok (negb (VisibilityGroup_isValid v28))) (
    step 4387 ((VisibilityGroup_parse "VIS" RP_RMK md_default)) (fun v29 => 
    chk 4388 (Ok (has_value v29)) (
    step 4389 (let! v30 := deref v29 in VisibilityGroup_append v30 "1" RP_RMK md_default) (fun p => let v31 := Some (fst p) in let v32 := snd p in 
    chk 4389 (Ok (AppendResult_beq v32 APPENDED)) (
    step 4390 (let! v33 := deref v31 in VisibilityGroup_append v33 "R37" RP_RMK md_default) (fun p => let v34 := Some (fst p) in let v35 := snd p in 
    chk 4390 (Ok (AppendResult_beq v35 APPENDED)) (
    step 4391 (let! v36 := deref v34 in VisibilityGroup_append v36 "" RP_RMK md_default) (fun p => let v37 := Some (fst p) in let v38 := snd p in 
    chk 4391 (Ok (AppendResult_beq v38 NOT_APPENDED)) (
    chk 4392 (let! v39 := deref v37 in Ok (has_value (vi_rw v39))) (
    chk 4393 (let! v40 := deref v37 in let! v41 := deref (vi_rw v40) in Ok (negb (Runway_isValid v41))) (
    chk 4394 (let! v42 := deref v37 in Ok (negb (VisibilityGroup_isValid v42))) (
    None))))))))))))))))))))))))))))))))).

Definition t_VisibilityGroup_parseRmkSfcVisIntegerFraction : option N :=
    step 4405 ((VisibilityGroup_parse "SFC" RP_RMK md_default)) (fun v1 => 
    chk 4406 (Ok (has_value v1)) (
    step 4408 (let! v2 := deref v1 in VisibilityGroup_append v2 "VIS" RP_RMK md_default) (fun p => let v3 := Some (fst p) in let v4 := snd p in 
    chk 4408 (Ok (AppendResult_beq v4 APPENDED)) (
    step 4410 (let! v5 := deref v3 in VisibilityGroup_append v5 "1" RP_RMK md_default) (fun p => let v6 := Some (fst p) in let v7 := snd p in 
    chk 4410 (Ok (AppendResult_beq v7 APPENDED)) (
    step 4412 (let! v8 := deref v6 in VisibilityGroup_append v8 "3/4" RP_RMK md_default) (fun p => let v9 := Some (fst p) in let v10 := snd p in 
    chk 4412 (Ok (AppendResult_beq v10 APPENDED)) (
    step 4414 (let! v11 := deref v9 in VisibilityGroup_append v11 "" RP_RMK md_default) (fun p => let v12 := Some (fst p) in let v13 := snd p in 
    chk 4414 (Ok (AppendResult_beq v13 NOT_APPENDED)) (
    chk 4417 (let! v14 := deref v12 in Ok (ViType_beq (vi_type v14) Vi_SURFACE)) (
    chk 4418 (let! v15 := deref v12 in Ok (negb (has_value (vi_dir v15)))) (
    chk 4420 (let! v16 := deref v12 in Ok (DistModifier_beq (distModifier (VisibilityGroup_visibility v16)) DM_NONE)) (
    chk 4421 (let! v17 := deref v12 in Ok (Distance_isReported (VisibilityGroup_visibility v17))) (
    chk 4422 (let! v18 := deref v12 in Ok (has_value (Distance_distance (VisibilityGroup_visibility v18)))) (
    chk 4423 (let! v19 := deref v12 in let! v20 := deref (Distance_distance (VisibilityGroup_visibility v19)) in Ok (near v20 (dlit (7) 4) (dlit (1) 200))) (
    chk 4424 (let! v21 := deref v12 in Ok (DistUnit_beq (distUnit (VisibilityGroup_visibility v21)) STATUTE_MILES)) (
    chk 4426 (let! v22 := deref v12 in Ok (negb (Distance_isReported (VisibilityGroup_minVisibility v22)))) (
    chk 4427 (let! v23 := deref v12 in Ok (negb (Distance_isReported (VisibilityGroup_maxVisibility v23)))) (
    chk 4428 (let! v24 := deref v12 in let! v25 := (VisibilityGroup_sectorDirections v24) in Ok (N.eqb (N.of_nat (List.length v25)) 0%N)) (
    chk 4429 (let! v26 := deref v12 in Ok (ViTrend_beq (vi_trend v26) Vt_NONE)) (
    chk 4430 (let! v27 := deref v12 in Ok (VisibilityGroup_isValid v27)) (
    None)))))))))))))))))))))).

Definition t_VisibilityGroup_parseRmkSfcVisInteger : option N :=
    step 4434 ((VisibilityGroup_parse "SFC" RP_RMK md_default)) (fun v1 => 
    chk 4435 (Ok (has_value v1)) (
    step 4437 (let! v2 := deref v1 in VisibilityGroup_append v2 "VIS" RP_RMK md_default) (fun p => let v3 := Some (fst p) in let v4 := snd p in 
    chk 4437 (Ok (AppendResult_beq v4 APPENDED)) (
    step 4439 (let! v5 := deref v3 in VisibilityGroup_append v5 "4" RP_RMK md_default) (fun p => let v6 := Some (fst p) in let v7 := snd p in 
    chk 4439 (Ok (AppendResult_beq v7 APPENDED)) (
    step 4441 (let! v8 := deref v6 in VisibilityGroup_append v8 "" RP_RMK md_default) (fun p => let v9 := Some (fst p) in let v10 := snd p in 
    chk 4441 (Ok (AppendResult_beq v10 NOT_APPENDED)) (
    chk 4444 (let! v11 := deref v9 in Ok (ViType_beq (vi_type v11) Vi_SURFACE)) (
    chk 4445 (let! v12 := deref v9 in Ok (negb (has_value (vi_dir v12)))) (
    chk 4447 (let! v13 := deref v9 in Ok (DistModifier_beq (distModifier (VisibilityGroup_visibility v13)) DM_NONE)) (
    chk 4448 (let! v14 := deref v9 in Ok (Distance_isReported (VisibilityGroup_visibility v14))) (
    chk 4449 (let! v15 := deref v9 in Ok (has_value (Distance_distance (VisibilityGroup_visibility v15)))) (
    chk 4450 (let! v16 := deref v9 in let! v17 := deref (Distance_distance (VisibilityGroup_visibility v16)) in Ok (near v17 (dlit (4) 1) (dlit (1) 200))) (
    chk 4451 (let! v18 := deref v9 in Ok (DistUnit_beq (distUnit (VisibilityGroup_visibility v18)) STATUTE_MILES)) (
    chk 4453 (let! v19 := deref v9 in Ok (negb (Distance_isReported (VisibilityGroup_minVisibility v19)))) (
    chk 4454 (let! v20 := deref v9 in Ok (negb (Distance_isReported (VisibilityGroup_maxVisibility v20)))) (
    chk 4455 (let! v21 := deref v9 in let! v22 := (VisibilityGroup_sectorDirections v21) in Ok (N.eqb (N.of_nat (List.length v22)) 0%N)) (
    chk 4456 (let! v23 := deref v9 in Ok (ViTrend_beq (vi_trend v23) Vt_NONE)) (
    chk 4457 (let! v24 := deref v9 in Ok (VisibilityGroup_isValid v24)) (
    None)))))))))))))))))))).

Definition t_VisibilityGroup_parseRmkSfcVisFraction : option N :=
    step 4461 ((VisibilityGroup_parse "SFC" RP_RMK md_default)) (fun v1 => 
    chk 4462 (Ok (has_value v1)) (
    step 4464 (let! v2 := deref v1 in VisibilityGroup_append v2 "VIS" RP_RMK md_default) (fun p => let v3 := Some (fst p) in let v4 := snd p in 
    chk 4464 (Ok (AppendResult_beq v4 APPENDED)) (
    step 4466 (let! v5 := deref v3 in VisibilityGroup_append v5 "1/8" RP_RMK md_default) (fun p => let v6 := Some (fst p) in let v7 := snd p in 
    chk 4466 (Ok (AppendResult_beq v7 APPENDED)) (
    step 4468 (let! v8 := deref v6 in VisibilityGroup_append v8 "" RP_RMK md_default) (fun p => let v9 := Some (fst p) in let v10 := snd p in 
    chk 4468 (Ok (AppendResult_beq v10 NOT_APPENDED)) (
    chk 4471 (let! v11 := deref v9 in Ok (ViType_beq (vi_type v11) Vi_SURFACE)) (
    chk 4472 (let! v12 := deref v9 in Ok (negb (has_value (vi_dir v12)))) (
    chk 4474 (let! v13 := deref v9 in Ok (DistModifier_beq (distModifier (VisibilityGroup_visibility v13)) DM_NONE)) (
    chk 4475 (let! v14 := deref v9 in Ok (Distance_isReported (VisibilityGroup_visibility v14))) (
    chk 4476 (let! v15 := deref v9 in Ok (has_value (Distance_distance (VisibilityGroup_visibility v15)))) (
    chk 4477 (let! v16 := deref v9 in let! v17 := deref (Distance_distance (VisibilityGroup_visibility v16)) in Ok (near v17 (dlit (1) 8) (dlit (1) 200))) (
    chk 4478 (let! v18 := deref v9 in Ok (DistUnit_beq (distUnit (VisibilityGroup_visibility v18)) STATUTE_MILES)) (
    chk 4480 (let! v19 := deref v9 in Ok (negb (Distance_isReported (VisibilityGroup_minVisibility v19)))) (
    chk 4481 (let! v20 := deref v9 in Ok (negb (Distance_isReported (VisibilityGroup_maxVisibility v20)))) (
    chk 4482 (let! v21 := deref v9 in let! v22 := (VisibilityGroup_sectorDirections v21) in Ok (N.eqb (N.of_nat (List.length v22)) 0%N)) (
    chk 4483 (let! v23 := deref v9 in Ok (ViTrend_beq (vi_trend v23) Vt_NONE)) (
    chk 4484 (let! v24 := deref v9 in Ok (VisibilityGroup_isValid v24)) (
    None)))))))))))))))))))).

Definition t_VisibilityGroup_parseRmkSfcVisMeters : option N :=
    step 4488 ((VisibilityGroup_parse "SFC" RP_RMK md_default)) (fun v1 => 
    chk 4489 (Ok (has_value v1)) (
    step 4490 (let! v2 := deref v1 in VisibilityGroup_append v2 "VIS" RP_RMK md_default) (fun p => let v3 := Some (fst p) in let v4 := snd p in 
    chk 4490 (Ok (AppendResult_beq v4 APPENDED)) (
    step 4491 (let! v5 := deref v3 in VisibilityGroup_append v5 "1500" RP_RMK md_default) (fun p => let v6 := Some (fst p) in let v7 := snd p in 
    chk 4491 (Ok (AppendResult_beq v7 APPENDED)) (
    step 4492 (let! v8 := deref v6 in VisibilityGroup_append v8 "" RP_RMK md_default) (fun p => let v9 := Some (fst p) in let v10 := snd p in 
    chk 4492 (Ok (AppendResult_beq v10 NOT_APPENDED)) (
    chk 4494 (let! v11 := deref v9 in Ok (ViType_beq (vi_type v11) Vi_SURFACE)) (
    chk 4495 (let! v12 := deref v9 in Ok (negb (has_value (vi_dir v12)))) (
    chk 4496 (let! v13 := deref v9 in Ok (negb (has_value (vi_rw v13)))) (
    chk 4498 (let! v14 := deref v9 in Ok (DistModifier_beq (distModifier (VisibilityGroup_visibility v14)) DM_NONE)) (
    chk 4499 (let! v15 := deref v9 in Ok (Distance_isReported (VisibilityGroup_visibility v15))) (
    chk 4500 (let! v16 := deref v9 in Ok (has_value (Distance_distance (VisibilityGroup_visibility v16)))) (
    chk 4501 (let! v17 := deref v9 in let! v18 := deref (Distance_distance (VisibilityGroup_visibility v17)) in Ok (near v18 (dlit (1500) 1) (dlit (1) 200))) (
    chk 4502 (let! v19 := deref v9 in Ok (DistUnit_beq (distUnit (VisibilityGroup_visibility v19)) METERS)) (
    chk 4504 (let! v20 := deref v9 in Ok (negb (Distance_isReported (VisibilityGroup_minVisibility v20)))) (
    chk 4505 (let! v21 := deref v9 in Ok (negb (Distance_isReported (VisibilityGroup_maxVisibility v21)))) (
    chk 4506 (let! v22 := deref v9 in let! v23 := (VisibilityGroup_sectorDirections v22) in Ok (N.eqb (N.of_nat (List.length v23)) 0%N)) (
    chk 4507 (let! v24 := deref v9 in Ok (ViTrend_beq (vi_trend v24) Vt_NONE)) (
    chk 4508 (let! v25 := deref v9 in Ok (VisibilityGroup_isValid v25)) (
    None))))))))))))))))))))).

Definition t_VisibilityGroup_parseRmkSfcMeters9999 : option N :=
    step 4512 ((VisibilityGroup_parse "SFC" RP_RMK md_default)) (fun v1 => 
    chk 4513 (Ok (has_value v1)) (
    step 4514 (let! v2 := deref v1 in VisibilityGroup_append v2 "VIS" RP_RMK md_default) (fun p => let v3 := Some (fst p) in let v4 := snd p in 
    chk 4514 (Ok (AppendResult_beq v4 APPENDED)) (
    step 4515 (let! v5 := deref v3 in VisibilityGroup_append v5 "9999" RP_RMK md_default) (fun p => let v6 := Some (fst p) in let v7 := snd p in 
    chk 4515 (Ok (AppendResult_beq v7 APPENDED)) (
    step 4516 (let! v8 := deref v6 in VisibilityGroup_append v8 "" RP_RMK md_default) (fun p => let v9 := Some (fst p) in let v10 := snd p in 
    chk 4516 (Ok (AppendResult_beq v10 NOT_APPENDED)) (
    chk 4518 (let! v11 := deref v9 in Ok (ViType_beq (vi_type v11) Vi_SURFACE)) (
    chk 4519 (let! v12 := deref v9 in Ok (negb (has_value (vi_dir v12)))) (
    chk 4520 (let! v13 := deref v9 in Ok (negb (has_value (vi_rw v13)))) (
    chk 4522 (let! v14 := deref v9 in Ok (DistModifier_beq (distModifier (VisibilityGroup_visibility v14)) DM_MORE_THAN)) (
    chk 4523 (let! v15 := deref v9 in Ok (Distance_isReported (VisibilityGroup_visibility v15))) (
    chk 4524 (let! v16 := deref v9 in Ok (has_value (Distance_distance (VisibilityGroup_visibility v16)))) (
    chk 4525 (let! v17 := deref v9 in let! v18 := deref (Distance_distance (VisibilityGroup_visibility v17)) in Ok (near v18 (dlit (10000) 1) (dlit (1) 200))) (
    chk 4526 (let! v19 := deref v9 in Ok (DistUnit_beq (distUnit (VisibilityGroup_visibility v19)) METERS)) (
    chk 4528 (let! v20 := deref v9 in Ok (negb (Distance_isReported (VisibilityGroup_minVisibility v20)))) (
    chk 4529 (let! v21 := deref v9 in Ok (negb (Distance_isReported (VisibilityGroup_maxVisibility v21)))) (
    chk 4530 (let! v22 := deref v9 in let! v23 := (VisibilityGroup_sectorDirections v22) in Ok (N.eqb (N.of_nat (List.length v23)) 0%N)) (
    chk 4531 (let! v24 := deref v9 in Ok (ViTrend_beq (vi_trend v24) Vt_NONE)) (
    chk 4532 (let! v25 := deref v9 in Ok (VisibilityGroup_isValid v25)) (
    None))))))))))))))))))))).

Definition t_VisibilityGroup_parseRmkAppendToCompleteSfcVis : option N :=
    step 4536 ((VisibilityGroup_parse "SFC" RP_RMK md_default)) (fun v1 => 
    chk 4537 (Ok (has_value v1)) (
    step 4538 (let! v2 := deref v1 in VisibilityGroup_append v2 "VIS" RP_RMK md_default) (fun p => let v3 := Some (fst p) in let v4 := snd p in 
    chk 4538 (Ok (AppendResult_beq v4 APPENDED)) (
    step 4539 (let! v5 := deref v3 in VisibilityGroup_append v5 "3" RP_RMK md_default) (fun p => let v6 := Some (fst p) in let v7 := snd p in 
    chk 4539 (Ok (AppendResult_beq v7 APPENDED)) (
    step 4541 (let! v8 := deref v6 in VisibilityGroup_append v8 "NW" RP_RMK md_default) (fun p => let v9 := Some (fst p) in let v10 := snd p in 
    chk 4541 (Ok (AppendResult_beq v10 NOT_APPENDED)) (
    step 4542 (let! v11 := deref v9 in VisibilityGroup_append v11 "3" RP_RMK md_default) (fun p => let v12 := Some (fst p) in let v13 := snd p in 
    chk 4542 (Ok (AppendResult_beq v13 NOT_APPENDED)) (
    step 4543 (let! v14 := deref v12 in VisibilityGroup_append v14 "1V3" RP_RMK md_default) (fun p => let v15 := Some (fst p) in let v16 := snd p in 
    chk 4543 (Ok (AppendResult_beq v16 NOT_APPENDED)) (
    step 4544 (let! v17 := deref v15 in VisibilityGroup_append v17 "1/2V3" RP_RMK md_default) (fun p => let v18 := Some (fst p) in let v19 := snd p in 
    chk 4544 (Ok (AppendResult_beq v19 NOT_APPENDED)) (
    step 4545 (let! v20 := deref v18 in VisibilityGroup_append v20 "2" RP_RMK md_default) (fun p => let v21 := Some (fst p) in let v22 := snd p in 
    chk 4545 (Ok (AppendResult_beq v22 NOT_APPENDED)) (
    step 4546 (let! v23 := deref v21 in VisibilityGroup_append v23 "RWY22" RP_RMK md_default) (fun p => let v24 := Some (fst p) in let v25 := snd p in 
    chk 4546 (Ok (AppendResult_beq v25 NOT_APPENDED)) (
    None)))))))))))))))))).

Definition t_VisibilityGroup_parseRmkSfcVisModifierIntegerFraction : option N :=
    step 4550 ((VisibilityGroup_parse "SFC" RP_RMK md_default)) (fun v1 => 
    chk 4551 (Ok (has_value v1)) (
    step 4553 (let! v2 := deref v1 in VisibilityGroup_append v2 "VIS" RP_RMK md_default) (fun p => let v3 := Some (fst p) in let v4 := snd p in 
    chk 4553 (Ok (AppendResult_beq v4 APPENDED)) (
    step 4555 (let! v5 := deref v3 in VisibilityGroup_append v5 "M1" RP_RMK md_default) (fun p => let v6 := Some (fst p) in let v7 := snd p in 
    chk 4555 (Ok (AppendResult_beq v7 APPENDED)) (
    step 4557 (let! v8 := deref v6 in VisibilityGroup_append v8 "1/4" RP_RMK md_default) (fun p => let v9 := Some (fst p) in let v10 := snd p in 
    chk 4557 (Ok (AppendResult_beq v10 APPENDED)) (
    step 4559 (let! v11 := deref v9 in VisibilityGroup_append v11 "" RP_RMK md_default) (fun p => let v12 := Some (fst p) in let v13 := snd p in 
    chk 4559 (Ok (AppendResult_beq v13 NOT_APPENDED)) (
    chk 4562 (let! v14 := deref v12 in Ok (ViType_beq (vi_type v14) Vi_SURFACE)) (
    chk 4563 (let! v15 := deref v12 in Ok (negb (has_value (vi_dir v15)))) (
    chk 4564 (let! v16 := deref v12 in Ok (negb (has_value (vi_rw v16)))) (
    chk 4566 (let! v17 := deref v12 in Ok (DistModifier_beq (distModifier (VisibilityGroup_visibility v17)) DM_LESS_THAN)) (
    chk 4567 (let! v18 := deref v12 in Ok (Distance_isReported (VisibilityGroup_visibility v18))) (
    chk 4568 (let! v19 := deref v12 in Ok (has_value (Distance_distance (VisibilityGroup_visibility v19)))) (
    chk 4569 (let! v20 := deref v12 in let! v21 := deref (Distance_distance (VisibilityGroup_visibility v20)) in Ok (near v21 (dlit (5) 4) (dlit (1) 200))) (
    chk 4570 (let! v22 := deref v12 in Ok (DistUnit_beq (distUnit (VisibilityGroup_visibility v22)) STATUTE_MILES)) (
    chk 4572 (let! v23 := deref v12 in Ok (negb (Distance_isReported (VisibilityGroup_minVisibility v23)))) (
    chk 4573 (let! v24 := deref v12 in Ok (negb (Distance_isReported (VisibilityGroup_maxVisibility v24)))) (
    chk 4574 (let! v25 := deref v12 in let! v26 := (VisibilityGroup_sectorDirections v25) in Ok (N.eqb (N.of_nat (List.length v26)) 0%N)) (
    chk 4575 (let! v27 := deref v12 in Ok (ViTrend_beq (vi_trend v27) Vt_NONE)) (
    chk 4576 (let! v28 := deref v12 in Ok (VisibilityGroup_isValid v28)) (
    None))))))))))))))))))))))).

Definition t_VisibilityGroup_parseRmkSfcVisModifierInteger : option N :=
    step 4580 ((VisibilityGroup_parse "SFC" RP_RMK md_default)) (fun v1 => 
    chk 4581 (Ok (has_value v1)) (
    step 4583 (let! v2 := deref v1 in VisibilityGroup_append v2 "VIS" RP_RMK md_default) (fun p => let v3 := Some (fst p) in let v4 := snd p in 
    chk 4583 (Ok (AppendResult_beq v4 APPENDED)) (
    step 4585 (let! v5 := deref v3 in VisibilityGroup_append v5 "P6" RP_RMK md_default) (fun p => let v6 := Some (fst p) in let v7 := snd p in 
    chk 4585 (Ok (AppendResult_beq v7 APPENDED)) (
    step 4587 (let! v8 := deref v6 in VisibilityGroup_append v8 "" RP_RMK md_default) (fun p => let v9 := Some (fst p) in let v10 := snd p in 
    chk 4587 (Ok (AppendResult_beq v10 NOT_APPENDED)) (
    chk 4590 (let! v11 := deref v9 in Ok (ViType_beq (vi_type v11) Vi_SURFACE)) (
    chk 4591 (let! v12 := deref v9 in Ok (negb (has_value (vi_dir v12)))) (
    chk 4592 (let! v13 := deref v9 in Ok (negb (has_value (vi_rw v13)))) (
    chk 4594 (let! v14 := deref v9 in Ok (DistModifier_beq (distModifier (VisibilityGroup_visibility v14)) DM_MORE_THAN)) (
    chk 4595 (let! v15 := deref v9 in Ok (Distance_isReported (VisibilityGroup_visibility v15))) (
    chk 4596 (let! v16 := deref v9 in Ok (has_value (Distance_distance (VisibilityGroup_visibility v16)))) (
    chk 4597 (let! v17 := deref v9 in let! v18 := deref (Distance_distance (VisibilityGroup_visibility v17)) in Ok (near v18 (dlit (6) 1) (dlit (1) 200))) (
    chk 4598 (let! v19 := deref v9 in Ok (DistUnit_beq (distUnit (VisibilityGroup_visibility v19)) STATUTE_MILES)) (
    chk 4600 (let! v20 := deref v9 in Ok (negb (Distance_isReported (VisibilityGroup_minVisibility v20)))) (
    chk 4601 (let! v21 := deref v9 in Ok (negb (Distance_isReported (VisibilityGroup_maxVisibility v21)))) (
    chk 4602 (let! v22 := deref v9 in let! v23 := (VisibilityGroup_sectorDirections v22) in Ok (N.eqb (N.of_nat (List.length v23)) 0%N)) (
    chk 4603 (let! v24 := deref v9 in Ok (ViTrend_beq (vi_trend v24) Vt_NONE)) (
    chk 4604 (let! v25 := deref v9 in Ok (VisibilityGroup_isValid v25)) (
    None))))))))))))))))))))).

Definition t_VisibilityGroup_parseRmkSfcVisModifierFraction : option N :=
    step 4608 ((VisibilityGroup_parse "SFC" RP_RMK md_default)) (fun v1 => 
    chk 4609 (Ok (has_value v1)) (
    step 4611 (let! v2 := deref v1 in VisibilityGroup_append v2 "VIS" RP_RMK md_default) (fun p => let v3 := Some (fst p) in let v4 := snd p in 
    chk 4611 (Ok (AppendResult_beq v4 APPENDED)) (
    step 4613 (let! v5 := deref v3 in VisibilityGroup_append v5 "M1/16" RP_RMK md_default) (fun p => let v6 := Some (fst p) in let v7 := snd p in 
    chk 4613 (Ok (AppendResult_beq v7 APPENDED)) (
    step 4615 (let! v8 := deref v6 in VisibilityGroup_append v8 "" RP_RMK md_default) (fun p => let v9 := Some (fst p) in let v10 := snd p in 
    chk 4615 (Ok (AppendResult_beq v10 NOT_APPENDED)) (
    chk 4618 (let! v11 := deref v9 in Ok (ViType_beq (vi_type v11) Vi_SURFACE)) (
    chk 4619 (let! v12 := deref v9 in Ok (negb (has_value (vi_dir v12)))) (
    chk 4620 (let! v13 := deref v9 in Ok (negb (has_value (vi_rw v13)))) (
    chk 4622 (let! v14 := deref v9 in Ok (DistModifier_beq (distModifier (VisibilityGroup_visibility v14)) DM_LESS_THAN)) (
    chk 4623 (let! v15 := deref v9 in Ok (Distance_isReported (VisibilityGroup_visibility v15))) (
    chk 4624 (let! v16 := deref v9 in Ok (has_value (Distance_distance (VisibilityGroup_visibility v16)))) (
    chk 4625 (let! v17 := deref v9 in let! v18 := deref (Distance_distance (VisibilityGroup_visibility v17)) in Ok (near v18 (dlit (1) 16) (dlit (1) 200))) (
    chk 4626 (let! v19 := deref v9 in Ok (DistUnit_beq (distUnit (VisibilityGroup_visibility v19)) STATUTE_MILES)) (
    chk 4628 (let! v20 := deref v9 in Ok (negb (Distance_isReported (VisibilityGroup_minVisibility v20)))) (
    chk 4629 (let! v21 := deref v9 in Ok (negb (Distance_isReported (VisibilityGroup_maxVisibility v21)))) (
    chk 4630 (let! v22 := deref v9 in let! v23 := (VisibilityGroup_sectorDirections v22) in Ok (N.eqb (N.of_nat (List.length v23)) 0%N)) (
    chk 4631 (let! v24 := deref v9 in Ok (ViTrend_beq (vi_trend v24) Vt_NONE)) (
    chk 4632 (let! v25 := deref v9 in Ok (VisibilityGroup_isValid v25)) (
    None))))))))))))))))))))).

Definition t_VisibilityGroup_parseRmkSfcVisAppendRunway : option N :=
    step 4642 ((VisibilityGroup_parse "SFC" RP_RMK md_default)) (fun v1 => 
    chk 4643 (Ok (has_value v1)) (
    step 4644 (let! v2 := deref v1 in VisibilityGroup_append v2 "VIS" RP_RMK md_default) (fun p => let v3 := Some (fst p) in let v4 := snd p in 
    chk 4644 (Ok (AppendResult_beq v4 APPENDED)) (
    step 4646 (let! v5 := deref v3 in VisibilityGroup_append v5 "4" RP_RMK md_default) (fun p => let v6 := Some (fst p) in let v7 := snd p in 
    chk 4646 (Ok (AppendResult_beq v7 APPENDED)) (
    step 4648 (let! v8 := deref v6 in VisibilityGroup_append v8 "R18" RP_RMK md_default) (fun p => let v9 := Some (fst p) in let v10 := snd p in 
    chk 4648 (Ok (AppendResult_beq v10 NOT_APPENDED)) (
    step 4651 ((VisibilityGroup_parse "SFC" RP_RMK md_default)) (fun v11 => 
    chk 4652 (Ok (has_value v11)) (
    step 4653 (let! v12 := deref v11 in VisibilityGroup_append v12 "VIS" RP_RMK md_default) (fun p => let v13 := Some (fst p) in let v14 := snd p in 
    chk 4653 (Ok (AppendResult_beq v14 APPENDED)) (
    step 4655 (let! v15 := deref v13 in VisibilityGroup_append v15 "4" RP_RMK md_default) (fun p => let v16 := Some (fst p) in let v17 := snd p in 
    chk 4655 (Ok (AppendResult_beq v17 APPENDED)) (
    step 4657 (let! v18 := deref v16 in VisibilityGroup_append v18 "RWY18" RP_RMK md_default) (fun p => let v19 := Some (fst p) in let v20 := snd p in 
    chk 4657 (Ok (AppendResult_beq v20 NOT_APPENDED)) (
    None)))))))))))))))).

Definition t_VisibilityGroup_parseRmkSfcVisIncorrectDirectional : option N :=
    step 4662 ((VisibilityGroup_parse "SFC" RP_RMK md_default)) (fun v1 => 
    chk 4663 (Ok (has_value v1)) (
    step 4665 (let! v2 := deref v1 in VisibilityGroup_append v2 "VIS" RP_RMK md_default) (fun p => let v3 := Some (fst p) in let v4 := snd p in 
    chk 4665 (Ok (AppendResult_beq v4 APPENDED)) (
    step 4667 (let! v5 := deref v3 in VisibilityGroup_append v5 "NW" RP_RMK md_default) (fun p => let v6 := Some (fst p) in let v7 := snd p in 
    chk 4667 (Ok (AppendResult_beq v7 GROUP_INVALIDATED)) (
    None)))))).

Definition t_VisibilityGroup_parseRmkAppendOtherToSfc : option N :=
    step 4672 ((VisibilityGroup_parse "SFC" RP_RMK md_default)) (fun v1 => 
    chk 4673 (Ok (has_value v1)) (
    step 4674 (let! v2 := deref v1 in VisibilityGroup_append v2 "1/8" RP_RMK md_default) (fun p => let v3 := Some (fst p) in let v4 := snd p in 
    chk 4674 (Ok (AppendResult_beq v4 GROUP_INVALIDATED)) (
    step 4677 ((VisibilityGroup_parse "SFC" RP_RMK md_default)) (fun v5 => 
    chk 4678 (Ok (has_value v5)) (
    step 4679 (let! v6 := deref v5 in VisibilityGroup_append v6 "2" RP_RMK md_default) (fun p => let v7 := Some (fst p) in let v8 := snd p in 
    chk 4679 (Ok (AppendResult_beq v8 GROUP_INVALIDATED)) (
    step 4682 ((VisibilityGroup_parse "SFC" RP_RMK md_default)) (fun v9 => 
    chk 4683 (Ok (has_value v9)) (
    step 4684 (let! v10 := deref v9 in VisibilityGroup_append v10 "W" RP_RMK md_default) (fun p => let v11 := Some (fst p) in let v12 := snd p in 
    chk 4684 (Ok (AppendResult_beq v12 GROUP_INVALIDATED)) (
    None)))))))))))).

Definition t_VisibilityGroup_parseRmkAppendOtherToSfcVis : option N :=
    step 4690 ((VisibilityGroup_parse "SFC" RP_RMK md_default)) (fun v1 => 
    chk 4691 (Ok (has_value v1)) (
    step 4692 (let! v2 := deref v1 in VisibilityGroup_append v2 "VIS" RP_RMK md_default) (fun p => let v3 := Some (fst p) in let v4 := snd p in 
    chk 4692 (Ok (AppendResult_beq v4 APPENDED)) (
    step 4693 (let! v5 := deref v3 in VisibilityGroup_append v5 "100" RP_RMK md_default) (fun p => let v6 := Some (fst p) in let v7 := snd p in 
    chk 4693 (Ok (AppendResult_beq v7 GROUP_INVALIDATED)) (
    step 4696 ((VisibilityGroup_parse "SFC" RP_RMK md_default)) (fun v8 => 
    chk 4697 (Ok (has_value v8)) (
    step 4698 (let! v9 := deref v8 in VisibilityGroup_append v9 "VIS" RP_RMK md_default) (fun p => let v10 := Some (fst p) in let v11 := snd p in 
    chk 4698 (Ok (AppendResult_beq v11 APPENDED)) (
    step 4699 (let! v12 := deref v10 in VisibilityGroup_append v12 "1/8SM" RP_RMK md_default) (fun p => let v13 := Some (fst p) in let v14 := snd p in 
    chk 4699 (Ok (AppendResult_beq v14 GROUP_INVALIDATED)) (
    step 4702 ((VisibilityGroup_parse "SFC" RP_RMK md_default)) (fun v15 => 
    chk 4703 (Ok (has_value v15)) (
    step 4704 (let! v16 := deref v15 in VisibilityGroup_append v16 "VIS" RP_RMK md_default) (fun p => let v17 := Some (fst p) in let v18 := snd p in 
    chk 4704 (Ok (AppendResult_beq v18 APPENDED)) (
    step 4705 (let! v19 := deref v17 in VisibilityGroup_append v19 "////SM" RP_RMK md_default) (fun p => let v20 := Some (fst p) in let v21 := snd p in 
    chk 4705 (Ok (AppendResult_beq v21 GROUP_INVALIDATED)) (
    step 4708 ((VisibilityGroup_parse "SFC" RP_RMK md_default)) (fun v22 => 
    chk 4709 (Ok (has_value v22)) (
    step 4710 (let! v23 := deref v22 in VisibilityGroup_append v23 "VIS" RP_RMK md_default) (fun p => let v24 := Some (fst p) in let v25 := snd p in 
    chk 4710 (Ok (AppendResult_beq v25 APPENDED)) (
    step 4711 (let! v26 := deref v24 in VisibilityGroup_append v26 "////" RP_RMK md_default) (fun p => let v27 := Some (fst p) in let v28 := snd p in 
    chk 4711 (Ok (AppendResult_beq v28 GROUP_INVALIDATED)) (
    None)))))))))))))))))))))))).

Definition t_VisibilityGroup_parseRmkAppendVariableToSfc : option N :=
    step 4716 ((VisibilityGroup_parse "SFC" RP_RMK md_default)) (fun v1 => 
    chk 4717 (Ok (has_value v1)) (
    step 4718 (let! v2 := deref v1 in VisibilityGroup_append v2 "VIS" RP_RMK md_default) (fun p => let v3 := Some (fst p) in let v4 := snd p in 
    chk 4718 (Ok (AppendResult_beq v4 APPENDED)) (
    step 4719 (let! v5 := deref v3 in VisibilityGroup_append v5 "1V2" RP_RMK md_default) (fun p => let v6 := Some (fst p) in let v7 := snd p in 
    chk 4719 (Ok (AppendResult_beq v7 GROUP_INVALIDATED)) (
    step 4722 ((VisibilityGroup_parse "SFC" RP_RMK md_default)) (fun v8 => 
    chk 4723 (Ok (has_value v8)) (
    step 4724 (let! v9 := deref v8 in VisibilityGroup_append v9 "VIS" RP_RMK md_default) (fun p => let v10 := Some (fst p) in let v11 := snd p in 
    chk 4724 (Ok (AppendResult_beq v11 APPENDED)) (
    step 4725 (let! v12 := deref v10 in VisibilityGroup_append v12 "1/8V1/4" RP_RMK md_default) (fun p => let v13 := Some (fst p) in let v14 := snd p in 
    chk 4725 (Ok (AppendResult_beq v14 GROUP_INVALIDATED)) (
    step 4728 ((VisibilityGroup_parse "SFC" RP_RMK md_default)) (fun v15 => 
    chk 4729 (Ok (has_value v15)) (
    step 4730 (let! v16 := deref v15 in VisibilityGroup_append v16 "VIS" RP_RMK md_default) (fun p => let v17 := Some (fst p) in let v18 := snd p in 
    chk 4730 (Ok (AppendResult_beq v18 APPENDED)) (
    step 4731 (let! v19 := deref v17 in VisibilityGroup_append v19 "1/2V1" RP_RMK md_default) (fun p => let v20 := Some (fst p) in let v21 := snd p in 
    chk 4731 (Ok (AppendResult_beq v21 GROUP_INVALIDATED)) (
    step 4734 ((VisibilityGroup_parse "SFC" RP_RMK md_default)) (fun v22 => 
    chk 4735 (Ok (has_value v22)) (
    step 4736 (let! v23 := deref v22 in VisibilityGroup_append v23 "VIS" RP_RMK md_default) (fun p => let v24 := Some (fst p) in let v25 := snd p in 
    chk 4736 (Ok (AppendResult_beq v25 APPENDED)) (
    step 4737 (let! v26 := deref v24 in VisibilityGroup_append v26 "1" RP_RMK md_default) (fun p => let v27 := Some (fst p) in let v28 := snd p in 
    chk 4737 (Ok (AppendResult_beq v28 APPENDED)) (
    step 4738 (let! v29 := deref v27 in VisibilityGroup_append v29 "1/2V1" RP_RMK md_default) (fun p => let v30 := Some (fst p) in let v31 := snd p in 
    chk 4738 (Ok (AppendResult_beq v31 GROUP_INVALIDATED)) (
    None)))))))))))))))))))))))))).

Definition t_VisibilityGroup_parseRmkTwrVisIntegerFraction : option N :=
    step 4750 ((VisibilityGroup_parse "TWR" RP_RMK md_default)) (fun v1 => 
    chk 4751 (Ok (has_value v1)) (
    step 4753 (let! v2 := deref v1 in VisibilityGroup_append v2 "VIS" RP_RMK md_default) (fun p => let v3 := Some (fst p) in let v4 := snd p in 
    chk 4753 (Ok (AppendResult_beq v4 APPENDED)) (
    step 4755 (let! v5 := deref v3 in VisibilityGroup_append v5 "1" RP_RMK md_default) (fun p => let v6 := Some (fst p) in let v7 := snd p in 
    chk 4755 (Ok (AppendResult_beq v7 APPENDED)) (
    step 4757 (let! v8 := deref v6 in VisibilityGroup_append v8 "3/4" RP_RMK md_default) (fun p => let v9 := Some (fst p) in let v10 := snd p in 
    chk 4757 (Ok (AppendResult_beq v10 APPENDED)) (
    step 4759 (let! v11 := deref v9 in VisibilityGroup_append v11 "" RP_RMK md_default) (fun p => let v12 := Some (fst p) in let v13 := snd p in 
    chk 4759 (Ok (AppendResult_beq v13 NOT_APPENDED)) (
    chk 4762 (let! v14 := deref v12 in Ok (ViType_beq (vi_type v14) Vi_TOWER)) (
    chk 4763 (let! v15 := deref v12 in Ok (negb (has_value (vi_dir v15)))) (
    chk 4765 (let! v16 := deref v12 in Ok (DistModifier_beq (distModifier (VisibilityGroup_visibility v16)) DM_NONE)) (
    chk 4766 (let! v17 := deref v12 in Ok (Distance_isReported (VisibilityGroup_visibility v17))) (
    chk 4767 (let! v18 := deref v12 in Ok (has_value (Distance_distance (VisibilityGroup_visibility v18)))) (
    chk 4768 (let! v19 := deref v12 in let! v20 := deref (Distance_distance (VisibilityGroup_visibility v19)) in Ok (near v20 (dlit (7) 4) (dlit (1) 200))) (
    chk 4769 (let! v21 := deref v12 in Ok (DistUnit_beq (distUnit (VisibilityGroup_visibility v21)) STATUTE_MILES)) (
    chk 4771 (let! v22 := deref v12 in Ok (negb (Distance_isReported (VisibilityGroup_minVisibility v22)))) (
    chk 4772 (let! v23 := deref v12 in Ok (negb (Distance_isReported (VisibilityGroup_maxVisibility v23)))) (
    chk 4773 (let! v24 := deref v12 in let! v25 := (VisibilityGroup_sectorDirections v24) in Ok (N.eqb (N.of_nat (List.length v25)) 0%N)) (
    chk 4774 (let! v26 := deref v12 in Ok (ViTrend_beq (vi_trend v26) Vt_NONE)) (
    chk 4775 (let! v27 := deref v12 in Ok (VisibilityGroup_isValid v27)) (
    None)))))))))))))))))))))).

Definition t_VisibilityGroup_parseRmkTwrVisInteger : option N :=
    step 4779 ((VisibilityGroup_parse "TWR" RP_RMK md_default)) (fun v1 => 
    chk 4780 (Ok (has_value v1)) (
    step 4782 (let! v2 := deref v1 in VisibilityGroup_append v2 "VIS" RP_RMK md_default) (fun p => let v3 := Some (fst p) in let v4 := snd p in 
    chk 4782 (Ok (AppendResult_beq v4 APPENDED)) (
    step 4784 (let! v5 := deref v3 in VisibilityGroup_append v5 "4" RP_RMK md_default) (fun p => let v6 := Some (fst p) in let v7 := snd p in 
    chk 4784 (Ok (AppendResult_beq v7 APPENDED)) (
    step 4786 (let! v8 := deref v6 in VisibilityGroup_append v8 "" RP_RMK md_default) (fun p => let v9 := Some (fst p) in let v10 := snd p in 
    chk 4786 (Ok (AppendResult_beq v10 NOT_APPENDED)) (
    chk 4789 (let! v11 := deref v9 in Ok (ViType_beq (vi_type v11) Vi_TOWER)) (
    chk 4790 (let! v12 := deref v9 in Ok (negb (has_value (vi_dir v12)))) (
    chk 4792 (let! v13 := deref v9 in Ok (DistModifier_beq (distModifier (VisibilityGroup_visibility v13)) DM_NONE)) (
    chk 4793 (let! v14 := deref v9 in Ok (Distance_isReported (VisibilityGroup_visibility v14))) (
    chk 4794 (let! v15 := deref v9 in Ok (has_value (Distance_distance (VisibilityGroup_visibility v15)))) (
    chk 4795 (let! v16 := deref v9 in let! v17 := deref (Distance_distance (VisibilityGroup_visibility v16)) in Ok (near v17 (dlit (4) 1) (dlit (1) 200))) (
    chk 4796 (let! v18 := deref v9 in Ok (DistUnit_beq (distUnit (VisibilityGroup_visibility v18)) STATUTE_MILES)) (
    chk 4798 (let! v19 := deref v9 in Ok (negb (Distance_isReported (VisibilityGroup_minVisibility v19)))) (
    chk 4799 (let! v20 := deref v9 in Ok (negb (Distance_isReported (VisibilityGroup_maxVisibility v20)))) (
    chk 4800 (let! v21 := deref v9 in let! v22 := (VisibilityGroup_sectorDirections v21) in Ok (N.eqb (N.of_nat (List.length v22)) 0%N)) (
    chk 4801 (let! v23 := deref v9 in Ok (ViTrend_beq (vi_trend v23) Vt_NONE)) (
    chk 4802 (let! v24 := deref v9 in Ok (VisibilityGroup_isValid v24)) (
    None)))))))))))))))))))).

Definition t_VisibilityGroup_parseRmkTwrVisFraction : option N :=
    step 4806 ((VisibilityGroup_parse "TWR" RP_RMK md_default)) (fun v1 => 
    chk 4807 (Ok (has_value v1)) (
    step 4809 (let! v2 := deref v1 in VisibilityGroup_append v2 "VIS" RP_RMK md_default) (fun p => let v3 := Some (fst p) in let v4 := snd p in 
    chk 4809 (Ok (AppendResult_beq v4 APPENDED)) (
    step 4811 (let! v5 := deref v3 in VisibilityGroup_append v5 "1/8" RP_RMK md_default) (fun p => let v6 := Some (fst p) in let v7 := snd p in 
    chk 4811 (Ok (AppendResult_beq v7 APPENDED)) (
    step 4813 (let! v8 := deref v6 in VisibilityGroup_append v8 "" RP_RMK md_default) (fun p => let v9 := Some (fst p) in let v10 := snd p in 
    chk 4813 (Ok (AppendResult_beq v10 NOT_APPENDED)) (
    chk 4816 (let! v11 := deref v9 in Ok (ViType_beq (vi_type v11) Vi_TOWER)) (
    chk 4817 (let! v12 := deref v9 in Ok (negb (has_value (vi_dir v12)))) (
    chk 4819 (let! v13 := deref v9 in Ok (DistModifier_beq (distModifier (VisibilityGroup_visibility v13)) DM_NONE)) (
    chk 4820 (let! v14 := deref v9 in Ok (Distance_isReported (VisibilityGroup_visibility v14))) (
    chk 4821 (let! v15 := deref v9 in Ok (has_value (Distance_distance (VisibilityGroup_visibility v15)))) (
    chk 4822 (let! v16 := deref v9 in let! v17 := deref (Distance_distance (VisibilityGroup_visibility v16)) in Ok (near v17 (dlit (1) 8) (dlit (1) 200))) (
    chk 4823 (let! v18 := deref v9 in Ok (DistUnit_beq (distUnit (VisibilityGroup_visibility v18)) STATUTE_MILES)) (
    chk 4825 (let! v19 := deref v9 in Ok (negb (Distance_isReported (VisibilityGroup_minVisibility v19)))) (
    chk 4826 (let! v20 := deref v9 in Ok (negb (Distance_isReported (VisibilityGroup_maxVisibility v20)))) (
    chk 4827 (let! v21 := deref v9 in let! v22 := (VisibilityGroup_sectorDirections v21) in Ok (N.eqb (N.of_nat (List.length v22)) 0%N)) (
    chk 4828 (let! v23 := deref v9 in Ok (ViTrend_beq (vi_trend v23) Vt_NONE)) (
    chk 4829 (let! v24 := deref v9 in Ok (VisibilityGroup_isValid v24)) (
    None)))))))))))))))))))).

Definition t_VisibilityGroup_parseRmkTwrVisMeters : option N :=
    step 4833 ((VisibilityGroup_parse "TWR" RP_RMK md_default)) (fun v1 => 
    chk 4834 (Ok (has_value v1)) (
    step 4835 (let! v2 := deref v1 in VisibilityGroup_append v2 "VIS" RP_RMK md_default) (fun p => let v3 := Some (fst p) in let v4 := snd p in 
    chk 4835 (Ok (AppendResult_beq v4 APPENDED)) (
    step 4836 (let! v5 := deref v3 in VisibilityGroup_append v5 "1500" RP_RMK md_default) (fun p => let v6 := Some (fst p) in let v7 := snd p in 
    chk 4836 (Ok (AppendResult_beq v7 APPENDED)) (
    step 4837 (let! v8 := deref v6 in VisibilityGroup_append v8 "" RP_RMK md_default) (fun p => let v9 := Some (fst p) in let v10 := snd p in 
    chk 4837 (Ok (AppendResult_beq v10 NOT_APPENDED)) (
    chk 4839 (let! v11 := deref v9 in Ok (ViType_beq (vi_type v11) Vi_TOWER)) (
    chk 4840 (let! v12 := deref v9 in Ok (negb (has_value (vi_dir v12)))) (
    chk 4841 (let! v13 := deref v9 in Ok (negb (has_value (vi_rw v13)))) (
    chk 4843 (let! v14 := deref v9 in Ok (DistModifier_beq (distModifier (VisibilityGroup_visibility v14)) DM_NONE)) (
    chk 4844 (let! v15 := deref v9 in Ok (Distance_isReported (VisibilityGroup_visibility v15))) (
    chk 4845 (let! v16 := deref v9 in Ok (has_value (Distance_distance (VisibilityGroup_visibility v16)))) (
    chk 4846 (let! v17 := deref v9 in let! v18 := deref (Distance_distance (VisibilityGroup_visibility v17)) in Ok (near v18 (dlit (1500) 1) (dlit (1) 200))) (
    chk 4847 (let! v19 := deref v9 in Ok (DistUnit_beq (distUnit (VisibilityGroup_visibility v19)) METERS)) (
    chk 4849 (let! v20 := deref v9 in Ok (negb (Distance_isReported (VisibilityGroup_minVisibility v20)))) (
    chk 4850 (let! v21 := deref v9 in Ok (negb (Distance_isReported (VisibilityGroup_maxVisibility v21)))) (
    chk 4851 (let! v22 := deref v9 in let! v23 := (VisibilityGroup_sectorDirections v22) in Ok (N.eqb (N.of_nat (List.length v23)) 0%N)) (
    chk 4852 (let! v24 := deref v9 in Ok (ViTrend_beq (vi_trend v24) Vt_NONE)) (
    chk 4853 (let! v25 := deref v9 in Ok (VisibilityGroup_isValid v25)) (
    None))))))))))))))))))))).

Definition t_VisibilityGroup_parseRmkTwrMeters9999 : option N :=
    step 4857 ((VisibilityGroup_parse "TWR" RP_RMK md_default)) (fun v1 => 
    chk 4858 (Ok (has_value v1)) (
    step 4859 (let! v2 := deref v1 in VisibilityGroup_append v2 "VIS" RP_RMK md_default) (fun p => let v3 := Some (fst p) in let v4 := snd p in 
    chk 4859 (Ok (AppendResult_beq v4 APPENDED)) (
    step 4860 (let! v5 := deref v3 in VisibilityGroup_append v5 "9999" RP_RMK md_default) (fun p => let v6 := Some (fst p) in let v7 := snd p in 
    chk 4860 (Ok (AppendResult_beq v7 APPENDED)) (
    step 4861 (let! v8 := deref v6 in VisibilityGroup_append v8 "" RP_RMK md_default) (fun p => let v9 := Some (fst p) in let v10 := snd p in 
    chk 4861 (Ok (AppendResult_beq v10 NOT_APPENDED)) (
    chk 4863 (let! v11 := deref v9 in Ok (ViType_beq (vi_type v11) Vi_TOWER)) (
    chk 4864 (let! v12 := deref v9 in Ok (negb (has_value (vi_dir v12)))) (
    chk 4865 (let! v13 := deref v9 in Ok (negb (has_value (vi_rw v13)))) (
    chk 4867 (let! v14 := deref v9 in Ok (DistModifier_beq (distModifier (VisibilityGroup_visibility v14)) DM_MORE_THAN)) (
    chk 4868 (let! v15 := deref v9 in Ok (Distance_isReported (VisibilityGroup_visibility v15))) (
    chk 4869 (let! v16 := deref v9 in Ok (has_value (Distance_distance (VisibilityGroup_visibility v16)))) (
    chk 4870 (let! v17 := deref v9 in let! v18 := deref (Distance_distance (VisibilityGroup_visibility v17)) in Ok (near v18 (dlit (10000) 1) (dlit (1) 200))) (
    chk 4871 (let! v19 := deref v9 in Ok (DistUnit_beq (distUnit (VisibilityGroup_visibility v19)) METERS)) (
    chk 4873 (let! v20 := deref v9 in Ok (negb (Distance_isReported (VisibilityGroup_minVisibility v20)))) (
    chk 4874 (let! v21 := deref v9 in Ok (negb (Distance_isReported (VisibilityGroup_maxVisibility v21)))) (
    chk 4875 (let! v22 := deref v9 in let! v23 := (VisibilityGroup_sectorDirections v22) in Ok (N.eqb (N.of_nat (List.length v23)) 0%N)) (
    chk 4876 (let! v24 := deref v9 in Ok (ViTrend_beq (vi_trend v24) Vt_NONE)) (
    chk 4877 (let! v25 := deref v9 in Ok (VisibilityGroup_isValid v25)) (
    None))))))))))))))))))))).

Definition t_VisibilityGroup_parseRmkTwrVisModifierIntegerFraction : option N :=
    step 4881 ((VisibilityGroup_parse "TWR" RP_RMK md_default)) (fun v1 => 
    chk 4882 (Ok (has_value v1)) (
    step 4884 (let! v2 := deref v1 in VisibilityGroup_append v2 "VIS" RP_RMK md_default) (fun p => let v3 := Some (fst p) in let v4 := snd p in 
    chk 4884 (Ok (AppendResult_beq v4 APPENDED)) (
    step 4886 (let! v5 := deref v3 in VisibilityGroup_append v5 "M1" RP_RMK md_default) (fun p => let v6 := Some (fst p) in let v7 := snd p in 
    chk 4886 (Ok (AppendResult_beq v7 APPENDED)) (
    step 4888 (let! v8 := deref v6 in VisibilityGroup_append v8 "1/4" RP_RMK md_default) (fun p => let v9 := Some (fst p) in let v10 := snd p in 
    chk 4888 (Ok (AppendResult_beq v10 APPENDED)) (
    step 4890 (let! v11 := deref v9 in VisibilityGroup_append v11 "" RP_RMK md_default) (fun p => let v12 := Some (fst p) in let v13 := snd p in 
    chk 4890 (Ok (AppendResult_beq v13 NOT_APPENDED)) (
    chk 4893 (let! v14 := deref v12 in Ok (ViType_beq (vi_type v14) Vi_TOWER)) (
    chk 4894 (let! v15 := deref v12 in Ok (negb (has_value (vi_dir v15)))) (
    chk 4895 (let! v16 := deref v12 in Ok (negb (has_value (vi_rw v16)))) (
    chk 4897 (let! v17 := deref v12 in Ok (DistModifier_beq (distModifier (VisibilityGroup_visibility v17)) DM_LESS_THAN)) (
    chk 4898 (let! v18 := deref v12 in Ok (Distance_isReported (VisibilityGroup_visibility v18))) (
    chk 4899 (let! v19 := deref v12 in Ok (has_value (Distance_distance (VisibilityGroup_visibility v19)))) (
    chk 4900 (let! v20 := deref v12 in let! v21 := deref (Distance_distance (VisibilityGroup_visibility v20)) in Ok (near v21 (dlit (5) 4) (dlit (1) 200))) (
    chk 4901 (let! v22 := deref v12 in Ok (DistUnit_beq (distUnit (VisibilityGroup_visibility v22)) STATUTE_MILES)) (
    chk 4903 (let! v23 := deref v12 in Ok (negb (Distance_isReported (VisibilityGroup_minVisibility v23)))) (
    chk 4904 (let! v24 := deref v12 in Ok (negb (Distance_isReported (VisibilityGroup_maxVisibility v24)))) (
    chk 4905 (let! v25 := deref v12 in let! v26 := (VisibilityGroup_sectorDirections v25) in Ok (N.eqb (N.of_nat (List.length v26)) 0%N)) (
    chk 4906 (let! v27 := deref v12 in Ok (ViTrend_beq (vi_trend v27) Vt_NONE)) (
    chk 4907 (let! v28 := deref v12 in Ok (VisibilityGroup_isValid v28)) (
    None))))))))))))))))))))))).

Definition t_VisibilityGroup_parseRmkTwrVisModifierInteger : option N :=
    step 4911 ((VisibilityGroup_parse "TWR" RP_RMK md_default)) (fun v1 => 
    chk 4912 (Ok (has_value v1)) (
    step 4914 (let! v2 := deref v1 in VisibilityGroup_append v2 "VIS" RP_RMK md_default) (fun p => let v3 := Some (fst p) in let v4 := snd p in 
    chk 4914 (Ok (AppendResult_beq v4 APPENDED)) (
    step 4916 (let! v5 := deref v3 in VisibilityGroup_append v5 "P6" RP_RMK md_default) (fun p => let v6 := Some (fst p) in let v7 := snd p in 
    chk 4916 (Ok (AppendResult_beq v7 APPENDED)) (
    step 4918 (let! v8 := deref v6 in VisibilityGroup_append v8 "" RP_RMK md_default) (fun p => let v9 := Some (fst p) in let v10 := snd p in 
    chk 4918 (Ok (AppendResult_beq v10 NOT_APPENDED)) (
    chk 4921 (let! v11 := deref v9 in Ok (ViType_beq (vi_type v11) Vi_TOWER)) (
    chk 4922 (let! v12 := deref v9 in Ok (negb (has_value (vi_dir v12)))) (
    chk 4923 (let! v13 := deref v9 in Ok (negb (has_value (vi_rw v13)))) (
    chk 4925 (let! v14 := deref v9 in Ok (DistModifier_beq (distModifier (VisibilityGroup_visibility v14)) DM_MORE_THAN)) (
    chk 4926 (let! v15 := deref v9 in Ok (Distance_isReported (VisibilityGroup_visibility v15))) (
    chk 4927 (let! v16 := deref v9 in Ok (has_value (Distance_distance (VisibilityGroup_visibility v16)))) (
    chk 4928 (let! v17 := deref v9 in let! v18 := deref (Distance_distance (VisibilityGroup_visibility v17)) in Ok (near v18 (dlit (6) 1) (dlit (1) 200))) (
    chk 4929 (let! v19 := deref v9 in Ok (DistUnit_beq (distUnit (VisibilityGroup_visibility v19)) STATUTE_MILES)) (
    chk 4931 (let! v20 := deref v9 in Ok (negb (Distance_isReported (VisibilityGroup_minVisibility v20)))) (
    chk 4932 (let! v21 := deref v9 in Ok (negb (Distance_isReported (VisibilityGroup_maxVisibility v21)))) (
    chk 4933 (let! v22 := deref v9 in let! v23 := (VisibilityGroup_sectorDirections v22) in Ok (N.eqb (N.of_nat (List.length v23)) 0%N)) (
    chk 4934 (let! v24 := deref v9 in Ok (ViTrend_beq (vi_trend v24) Vt_NONE)) (
    chk 4935 (let! v25 := deref v9 in Ok (VisibilityGroup_isValid v25)) (
    None))))))))))))))))))))).

Definition t_VisibilityGroup_parseRmkTwrVisModifierFraction : option N :=
    step 4939 ((VisibilityGroup_parse "TWR" RP_RMK md_default)) (fun v1 => 
    chk 4940 (Ok (has_value v1)) (
    step 4942 (let! v2 := deref v1 in VisibilityGroup_append v2 "VIS" RP_RMK md_default) (fun p => let v3 := Some (fst p) in let v4 := snd p in 
    chk 4942 (Ok (AppendResult_beq v4 APPENDED)) (
    step 4944 (let! v5 := deref v3 in VisibilityGroup_append v5 "M1/16" RP_RMK md_default) (fun p => let v6 := Some (fst p) in let v7 := snd p in 
    chk 4944 (Ok (AppendResult_beq v7 APPENDED)) (
    step 4946 (let! v8 := deref v6 in VisibilityGroup_append v8 "" RP_RMK md_default) (fun p => let v9 := Some (fst p) in let v10 := snd p in 
    chk 4946 (Ok (AppendResult_beq v10 NOT_APPENDED)) (
    chk 4949 (let! v11 := deref v9 in Ok (ViType_beq (vi_type v11) Vi_TOWER)) (
    chk 4950 (let! v12 := deref v9 in Ok (negb (has_value (vi_dir v12)))) (
    chk 4951 (let! v13 := deref v9 in Ok (negb (has_value (vi_rw v13)))) (
    chk 4953 (let! v14 := deref v9 in Ok (DistModifier_beq (distModifier (VisibilityGroup_visibility v14)) DM_LESS_THAN)) (
    chk 4954 (let! v15 := deref v9 in Ok (Distance_isReported (VisibilityGroup_visibility v15))) (
    chk 4955 (let! v16 := deref v9 in Ok (has_value (Distance_distance (VisibilityGroup_visibility v16)))) (
    chk 4956 (let! v17 := deref v9 in let! v18 := deref (Distance_distance (VisibilityGroup_visibility v17)) in Ok (near v18 (dlit (1) 16) (dlit (1) 200))) (
    chk 4957 (let! v19 := deref v9 in Ok (DistUnit_beq (distUnit (VisibilityGroup_visibility v19)) STATUTE_MILES)) (
    chk 4959 (let! v20 := deref v9 in Ok (negb (Distance_isReported (VisibilityGroup_minVisibility v20)))) (
    chk 4960 (let! v21 := deref v9 in Ok (negb (Distance_isReported (VisibilityGroup_maxVisibility v21)))) (
    chk 4961 (let! v22 := deref v9 in let! v23 := (VisibilityGroup_sectorDirections v22) in Ok (N.eqb (N.of_nat (List.length v23)) 0%N)) (
    chk 4962 (let! v24 := deref v9 in Ok (ViTrend_beq (vi_trend v24) Vt_NONE)) (
    chk 4963 (let! v25 := deref v9 in Ok (VisibilityGroup_isValid v25)) (
    None))))))))))))))))))))).

Definition t_VisibilityGroup_parseRmkTwrVisAppendRunway : option N :=
    step 4973 ((VisibilityGroup_parse "TWR" RP_RMK md_default)) (fun v1 => 
    chk 4974 (Ok (has_value v1)) (
    step 4975 (let! v2 := deref v1 in VisibilityGroup_append v2 "VIS" RP_RMK md_default) (fun p => let v3 := Some (fst p) in let v4 := snd p in 
    chk 4975 (Ok (AppendResult_beq v4 APPENDED)) (
    step 4977 (let! v5 := deref v3 in VisibilityGroup_append v5 "4" RP_RMK md_default) (fun p => let v6 := Some (fst p) in let v7 := snd p in 
    chk 4977 (Ok (AppendResult_beq v7 APPENDED)) (
    step 4979 (let! v8 := deref v6 in VisibilityGroup_append v8 "R18" RP_RMK md_default) (fun p => let v9 := Some (fst p) in let v10 := snd p in 
    chk 4979 (Ok (AppendResult_beq v10 NOT_APPENDED)) (
    step 4982 ((VisibilityGroup_parse "TWR" RP_RMK md_default)) (fun v11 => 
    chk 4983 (Ok (has_value v11)) (
    step 4984 (let! v12 := deref v11 in VisibilityGroup_append v12 "VIS" RP_RMK md_default) (fun p => let v13 := Some (fst p) in let v14 := snd p in 
    chk 4984 (Ok (AppendResult_beq v14 APPENDED)) (
    step 4986 (let! v15 := deref v13 in VisibilityGroup_append v15 "4" RP_RMK md_default) (fun p => let v16 := Some (fst p) in let v17 := snd p in 
    chk 4986 (Ok (AppendResult_beq v17 APPENDED)) (
    step 4988 (let! v18 := deref v16 in VisibilityGroup_append v18 "RWY18" RP_RMK md_default) (fun p => let v19 := Some (fst p) in let v20 := snd p in 
    chk 4988 (Ok (AppendResult_beq v20 NOT_APPENDED)) (
    None)))))))))))))))).

Definition t_VisibilityGroup_parseRmkTwrVisIncorrectDirectional : option N :=
    step 4993 ((VisibilityGroup_parse "TWR" RP_RMK md_default)) (fun v1 => 
    chk 4994 (Ok (has_value v1)) (
    step 4996 (let! v2 := deref v1 in VisibilityGroup_append v2 "VIS" RP_RMK md_default) (fun p => let v3 := Some (fst p) in let v4 := snd p in 
    chk 4996 (Ok (AppendResult_beq v4 APPENDED)) (
    step 4998 (let! v5 := deref v3 in VisibilityGroup_append v5 "NW" RP_RMK md_default) (fun p => let v6 := Some (fst p) in let v7 := snd p in 
    chk 4998 (Ok (AppendResult_beq v7 GROUP_INVALIDATED)) (
    None)))))).

Definition t_VisibilityGroup_parseRmkAppendOtherToTwr : option N :=
    step 5003 ((VisibilityGroup_parse "TWR" RP_RMK md_default)) (fun v1 => 
    chk 5004 (Ok (has_value v1)) (
    step 5005 (let! v2 := deref v1 in VisibilityGroup_append v2 "1/8" RP_RMK md_default) (fun p => let v3 := Some (fst p) in let v4 := snd p in 
    chk 5005 (Ok (AppendResult_beq v4 GROUP_INVALIDATED)) (
    step 5008 ((VisibilityGroup_parse "TWR" RP_RMK md_default)) (fun v5 => 
    chk 5009 (Ok (has_value v5)) (
    step 5010 (let! v6 := deref v5 in VisibilityGroup_append v6 "2" RP_RMK md_default) (fun p => let v7 := Some (fst p) in let v8 := snd p in 
    chk 5010 (Ok (AppendResult_beq v8 GROUP_INVALIDATED)) (
    step 5013 ((VisibilityGroup_parse "TWR" RP_RMK md_default)) (fun v9 => 
    chk 5014 (Ok (has_value v9)) (
    step 5015 (let! v10 := deref v9 in VisibilityGroup_append v10 "W" RP_RMK md_default) (fun p => let v11 := Some (fst p) in let v12 := snd p in 
    chk 5015 (Ok (AppendResult_beq v12 GROUP_INVALIDATED)) (
    None)))))))))))).

Definition t_VisibilityGroup_parseRmkAppendOtherToTwrVis : option N :=
    step 5021 ((VisibilityGroup_parse "TWR" RP_RMK md_default)) (fun v1 => 
    chk 5022 (Ok (has_value v1)) (
    step 5023 (let! v2 := deref v1 in VisibilityGroup_append v2 "VIS" RP_RMK md_default) (fun p => let v3 := Some (fst p) in let v4 := snd p in 
    chk 5023 (Ok (AppendResult_beq v4 APPENDED)) (
    step 5024 (let! v5 := deref v3 in VisibilityGroup_append v5 "W" RP_RMK md_default) (fun p => let v6 := Some (fst p) in let v7 := snd p in 
    chk 5024 (Ok (AppendResult_beq v7 GROUP_INVALIDATED)) (
    step 5027 ((VisibilityGroup_parse "TWR" RP_RMK md_default)) (fun v8 => 
    chk 5028 (Ok (has_value v8)) (
    step 5029 (let! v9 := deref v8 in VisibilityGroup_append v9 "VIS" RP_RMK md_default) (fun p => let v10 := Some (fst p) in let v11 := snd p in 
    chk 5029 (Ok (AppendResult_beq v11 APPENDED)) (
    step 5030 (let! v12 := deref v10 in VisibilityGroup_append v12 "1/8SM" RP_RMK md_default) (fun p => let v13 := Some (fst p) in let v14 := snd p in 
    chk 5030 (Ok (AppendResult_beq v14 GROUP_INVALIDATED)) (
    step 5033 ((VisibilityGroup_parse "TWR" RP_RMK md_default)) (fun v15 => 
    chk 5034 (Ok (has_value v15)) (
    step 5035 (let! v16 := deref v15 in VisibilityGroup_append v16 "VIS" RP_RMK md_default) (fun p => let v17 := Some (fst p) in let v18 := snd p in 
    chk 5035 (Ok (AppendResult_beq v18 APPENDED)) (
    step 5036 (let! v19 := deref v17 in VisibilityGroup_append v19 "////SM" RP_RMK md_default) (fun p => let v20 := Some (fst p) in let v21 := snd p in 
    chk 5036 (Ok (AppendResult_beq v21 GROUP_INVALIDATED)) (
    step 5039 ((VisibilityGroup_parse "TWR" RP_RMK md_default)) (fun v22 => 
    chk 5040 (Ok (has_value v22)) (
    step 5041 (let! v23 := deref v22 in VisibilityGroup_append v23 "VIS" RP_RMK md_default) (fun p => let v24 := Some (fst p) in let v25 := snd p in 
    chk 5041 (Ok (AppendResult_beq v25 APPENDED)) (
    step 5042 (let! v26 := deref v24 in VisibilityGroup_append v26 "////" RP_RMK md_default) (fun p => let v27 := Some (fst p) in let v28 := snd p in 
    chk 5042 (Ok (AppendResult_beq v28 GROUP_INVALIDATED)) (
    None)))))))))))))))))))))))).

Definition t_VisibilityGroup_parseRmkAppendVariableToTwr : option N :=
    step 5047 ((VisibilityGroup_parse "TWR" RP_RMK md_default)) (fun v1 => 
    chk 5048 (Ok (has_value v1)) (
    step 5049 (let! v2 := deref v1 in VisibilityGroup_append v2 "VIS" RP_RMK md_default) (fun p => let v3 := Some (fst p) in let v4 := snd p in 
    chk 5049 (Ok (AppendResult_beq v4 APPENDED)) (
    step 5050 (let! v5 := deref v3 in VisibilityGroup_append v5 "1V2" RP_RMK md_default) (fun p => let v6 := Some (fst p) in let v7 := snd p in 
    chk 5050 (Ok (AppendResult_beq v7 GROUP_INVALIDATED)) (
    step 5053 ((VisibilityGroup_parse "TWR" RP_RMK md_default)) (fun v8 => 
    chk 5054 (Ok (has_value v8)) (
    step 5055 (let! v9 := deref v8 in VisibilityGroup_append v9 "VIS" RP_RMK md_default) (fun p => let v10 := Some (fst p) in let v11 := snd p in 
    chk 5055 (Ok (AppendResult_beq v11 APPENDED)) (
    step 5056 (let! v12 := deref v10 in VisibilityGroup_append v12 "1/8V1/4" RP_RMK md_default) (fun p => let v13 := Some (fst p) in let v14 := snd p in 
    chk 5056 (Ok (AppendResult_beq v14 GROUP_INVALIDATED)) (
    step 5059 ((VisibilityGroup_parse "TWR" RP_RMK md_default)) (fun v15 => 
    chk 5060 (Ok (has_value v15)) (
    step 5061 (let! v16 := deref v15 in VisibilityGroup_append v16 "VIS" RP_RMK md_default) (fun p => let v17 := Some (fst p) in let v18 := snd p in 
    chk 5061 (Ok (AppendResult_beq v18 APPENDED)) (
    step 5062 (let! v19 := deref v17 in VisibilityGroup_append v19 "1/2V1" RP_RMK md_default) (fun p => let v20 := Some (fst p) in let v21 := snd p in 
    chk 5062 (Ok (AppendResult_beq v21 GROUP_INVALIDATED)) (
    step 5065 ((VisibilityGroup_parse "TWR" RP_RMK md_default)) (fun v22 => 
    chk 5066 (Ok (has_value v22)) (
    step 5067 (let! v23 := deref v22 in VisibilityGroup_append v23 "VIS" RP_RMK md_default) (fun p => let v24 := Some (fst p) in let v25 := snd p in 
    chk 5067 (Ok (AppendResult_beq v25 APPENDED)) (
    step 5068 (let! v26 := deref v24 in VisibilityGroup_append v26 "1" RP_RMK md_default) (fun p => let v27 := Some (fst p) in let v28 := snd p in 
    chk 5068 (Ok (AppendResult_beq v28 APPENDED)) (
    step 5069 (let! v29 := deref v27 in VisibilityGroup_append v29 "1/2V1" RP_RMK md_default) (fun p => let v30 := Some (fst p) in let v31 := snd p in 
    chk 5069 (Ok (AppendResult_beq v31 GROUP_INVALIDATED)) (
    None)))))))))))))))))))))))))).

Definition t_VisibilityGroup_parseRmkAppendToCompleteTwrVis : option N :=
    step 5074 ((VisibilityGroup_parse "TWR" RP_RMK md_default)) (fun v1 => 
    chk 5075 (Ok (has_value v1)) (
    step 5076 (let! v2 := deref v1 in VisibilityGroup_append v2 "VIS" RP_RMK md_default) (fun p => let v3 := Some (fst p) in let v4 := snd p in 
    chk 5076 (Ok (AppendResult_beq v4 APPENDED)) (
    step 5077 (let! v5 := deref v3 in VisibilityGroup_append v5 "3" RP_RMK md_default) (fun p => let v6 := Some (fst p) in let v7 := snd p in 
    chk 5077 (Ok (AppendResult_beq v7 APPENDED)) (
    step 5079 (let! v8 := deref v6 in VisibilityGroup_append v8 "NW" RP_RMK md_default) (fun p => let v9 := Some (fst p) in let v10 := snd p in 
    chk 5079 (Ok (AppendResult_beq v10 NOT_APPENDED)) (
    step 5080 (let! v11 := deref v9 in VisibilityGroup_append v11 "3" RP_RMK md_default) (fun p => let v12 := Some (fst p) in let v13 := snd p in 
    chk 5080 (Ok (AppendResult_beq v13 NOT_APPENDED)) (
    step 5081 (let! v14 := deref v12 in VisibilityGroup_append v14 "1V3" RP_RMK md_default) (fun p => let v15 := Some (fst p) in let v16 := snd p in 
    chk 5081 (Ok (AppendResult_beq v16 NOT_APPENDED)) (
    step 5082 (let! v17 := deref v15 in VisibilityGroup_append v17 "1/2V3" RP_RMK md_default) (fun p => let v18 := Some (fst p) in let v19 := snd p in 
    chk 5082 (Ok (AppendResult_beq v19 NOT_APPENDED)) (
    step 5083 (let! v20 := deref v18 in VisibilityGroup_append v20 "2" RP_RMK md_default) (fun p => let v21 := Some (fst p) in let v22 := snd p in 
    chk 5083 (Ok (AppendResult_beq v22 NOT_APPENDED)) (
    step 5084 (let! v23 := deref v21 in VisibilityGroup_append v23 "RWY22" RP_RMK md_default) (fun p => let v24 := Some (fst p) in let v25 := snd p in 
    chk 5084 (Ok (AppendResult_beq v25 NOT_APPENDED)) (
    None)))))))))))))))))).

Definition t_VisibilityGroup_parseRvrMeters : option N :=
    step 5094 ((VisibilityGroup_parse "R05/1100" RP_METAR md_default)) (fun v1 => 
    chk 5095 (Ok (has_value v1)) (
    chk 5097 (let! v2 := deref v1 in Ok (ViType_beq (vi_type v2) Vi_RVR)) (
    chk 5098 (let! v3 := deref v1 in Ok (negb (has_value (vi_dir v3)))) (
    chk 5100 (let! v4 := deref v1 in Ok (has_value (vi_rw v4))) (
    chk 5101 (let! v5 := deref v1 in let! v6 := deref (vi_rw v5) in Ok (N.eqb (rNumber v6) 5%N)) (
    chk 5102 (let! v7 := deref v1 in let! v8 := deref (vi_rw v7) in Ok (RwDesignator_beq (rDesignator v8) Rw_NONE)) (
    chk 5104 (let! v9 := deref v1 in Ok (DistModifier_beq (distModifier (VisibilityGroup_visibility v9)) DM_NONE)) (
    chk 5105 (let! v10 := deref v1 in Ok (Distance_isReported (VisibilityGroup_visibility v10))) (
    chk 5106 (let! v11 := deref v1 in Ok (has_value (Distance_distance (VisibilityGroup_visibility v11)))) (
    chk 5107 (let! v12 := deref v1 in let! v13 := deref (Distance_distance (VisibilityGroup_visibility v12)) in Ok (near v13 (dlit (1100) 1) (dlit (1) 200))) (
    chk 5108 (let! v14 := deref v1 in Ok (DistUnit_beq (distUnit (VisibilityGroup_visibility v14)) METERS)) (
    chk 5110 (let! v15 := deref v1 in Ok (negb (Distance_isReported (VisibilityGroup_minVisibility v15)))) (
    chk 5111 (let! v16 := deref v1 in Ok (negb (Distance_isReported (VisibilityGroup_maxVisibility v16)))) (
    chk 5112 (let! v17 := deref v1 in let! v18 := (VisibilityGroup_sectorDirections v17) in Ok (N.eqb (N.of_nat (List.length v18)) 0%N)) (
    chk 5114 (let! v19 := deref v1 in Ok (ViTrend_beq (vi_trend v19) Vt_NONE)) (
    chk 5115 (let! v20 := deref v1 in Ok (VisibilityGroup_isValid v20)) (
    None))))))))))))))))).

Definition t_VisibilityGroup_parseRvrMetersWithModifiers : option N :=
    step 5119 ((VisibilityGroup_parse "R04/P2000" RP_METAR md_default)) (fun v1 => 
    chk 5120 (Ok (has_value v1)) (
    chk 5121 (let! v2 := deref v1 in Ok (ViType_beq (vi_type v2) Vi_RVR)) (
    chk 5122 (let! v3 := deref v1 in Ok (negb (has_value (vi_dir v3)))) (
    chk 5123 (let! v4 := deref v1 in Ok (has_value (vi_rw v4))) (
    chk 5124 (let! v5 := deref v1 in let! v6 := deref (vi_rw v5) in Ok (N.eqb (rNumber v6) 4%N)) (
    chk 5125 (let! v7 := deref v1 in let! v8 := deref (vi_rw v7) in Ok (RwDesignator_beq (rDesignator v8) Rw_NONE)) (
    chk 5126 (let! v9 := deref v1 in Ok (DistModifier_beq (distModifier (VisibilityGroup_visibility v9)) DM_MORE_THAN)) (
    chk 5127 (let! v10 := deref v1 in Ok (Distance_isReported (VisibilityGroup_visibility v10))) (
    chk 5128 (let! v11 := deref v1 in Ok (has_value (Distance_distance (VisibilityGroup_visibility v11)))) (
    chk 5129 (let! v12 := deref v1 in let! v13 := deref (Distance_distance (VisibilityGroup_visibility v12)) in Ok (near v13 (dlit (2000) 1) (dlit (1) 200))) (
    chk 5130 (let! v14 := deref v1 in Ok (DistUnit_beq (distUnit (VisibilityGroup_visibility v14)) METERS)) (
    chk 5131 (let! v15 := deref v1 in Ok (negb (Distance_isReported (VisibilityGroup_minVisibility v15)))) (
    chk 5132 (let! v16 := deref v1 in Ok (negb (Distance_isReported (VisibilityGroup_maxVisibility v16)))) (
    chk 5133 (let! v17 := deref v1 in let! v18 := (VisibilityGroup_sectorDirections v17) in Ok (N.eqb (N.of_nat (List.length v18)) 0%N)) (
    chk 5134 (let! v19 := deref v1 in Ok (ViTrend_beq (vi_trend v19) Vt_NONE)) (
    chk 5135 (let! v20 := deref v1 in Ok (VisibilityGroup_isValid v20)) (
    step 5137 ((VisibilityGroup_parse "R21/M0200" RP_METAR md_default)) (fun v21 => 
    chk 5138 (Ok (has_value v21)) (
    chk 5139 (let! v22 := deref v21 in Ok (ViType_beq (vi_type v22) Vi_RVR)) (
    chk 5140 (let! v23 := deref v21 in Ok (negb (has_value (vi_dir v23)))) (
    chk 5141 (let! v24 := deref v21 in Ok (has_value (vi_rw v24))) (
    chk 5142 (let! v25 := deref v21 in let! v26 := deref (vi_rw v25) in Ok (N.eqb (rNumber v26) 21%N)) (
    chk 5143 (let! v27 := deref v21 in let! v28 := deref (vi_rw v27) in Ok (RwDesignator_beq (rDesignator v28) Rw_NONE)) (
    chk 5144 (let! v29 := deref v21 in Ok (DistModifier_beq (distModifier (VisibilityGroup_visibility v29)) DM_LESS_THAN)) (
    chk 5145 (let! v30 := deref v21 in Ok (Distance_isReported (VisibilityGroup_visibility v30))) (
    chk 5146 (let! v31 := deref v21 in Ok (has_value (Distance_distance (VisibilityGroup_visibility v31)))) (
    chk 5147 (let! v32 := deref v21 in let! v33 := deref (Distance_distance (VisibilityGroup_visibility v32)) in Ok (near v33 (dlit (200) 1) (dlit (1) 200))) (
    chk 5148 (let! v34 := deref v21 in Ok (DistUnit_beq (distUnit (VisibilityGroup_visibility v34)) METERS)) (
    chk 5149 (let! v35 := deref v21 in Ok (negb (Distance_isReported (VisibilityGroup_minVisibility v35)))) (
    chk 5150 (let! v36 := deref v21 in Ok (negb (Distance_isReported (VisibilityGroup_maxVisibility v36)))) (
    chk 5151 (let! v37 := deref v21 in let! v38 := (VisibilityGroup_sectorDirections v37) in Ok (N.eqb (N.of_nat (List.length v38)) 0%N)) (
    chk 5152 (let! v39 := deref v21 in Ok (ViTrend_beq (vi_trend v39) Vt_NONE)) (
    chk 5153 (let! v40 := deref v21 in Ok (VisibilityGroup_isValid v40)) (
    None)))))))))))))))))))))))))))))))))).

Definition t_VisibilityGroup_parseRvrFeet : option N :=
    step 5157 ((VisibilityGroup_parse "R11/4500FT" RP_METAR md_default)) (fun v1 => 
    chk 5158 (Ok (has_value v1)) (
    chk 5160 (let! v2 := deref v1 in Ok (ViType_beq (vi_type v2) Vi_RVR)) (
    chk 5161 (let! v3 := deref v1 in Ok (negb (has_value (vi_dir v3)))) (
    chk 5163 (let! v4 := deref v1 in Ok (has_value (vi_rw v4))) (
    chk 5164 (let! v5 := deref v1 in let! v6 := deref (vi_rw v5) in Ok (N.eqb (rNumber v6) 11%N)) (
    chk 5165 (let! v7 := deref v1 in let! v8 := deref (vi_rw v7) in Ok (RwDesignator_beq (rDesignator v8) Rw_NONE)) (
    chk 5167 (let! v9 := deref v1 in Ok (DistModifier_beq (distModifier (VisibilityGroup_visibility v9)) DM_NONE)) (
    chk 5168 (let! v10 := deref v1 in Ok (Distance_isReported (VisibilityGroup_visibility v10))) (
    chk 5169 (let! v11 := deref v1 in Ok (has_value (Distance_distance (VisibilityGroup_visibility v11)))) (
    chk 5170 (let! v12 := deref v1 in let! v13 := deref (Distance_distance (VisibilityGroup_visibility v12)) in Ok (near v13 (dlit (4500) 1) (dlit (1) 200))) (
    chk 5171 (let! v14 := deref v1 in Ok (DistUnit_beq (distUnit (VisibilityGroup_visibility v14)) FEET)) (
    chk 5173 (let! v15 := deref v1 in Ok (negb (Distance_isReported (VisibilityGroup_minVisibility v15)))) (
    chk 5174 (let! v16 := deref v1 in Ok (negb (Distance_isReported (VisibilityGroup_maxVisibility v16)))) (
    chk 5175 (let! v17 := deref v1 in let! v18 := (VisibilityGroup_sectorDirections v17) in Ok (N.eqb (N.of_nat (List.length v18)) 0%N)) (
    chk 5177 (let! v19 := deref v1 in Ok (ViTrend_beq (vi_trend v19) Vt_NONE)) (
    chk 5178 (let! v20 := deref v1 in Ok (VisibilityGroup_isValid v20)) (
    None))))))))))))))))).

Definition t_VisibilityGroup_parseRvrFeetWithModifiers : option N :=
    step 5182 ((VisibilityGroup_parse "R11/P6000FT" RP_METAR md_default)) (fun v1 => 
    chk 5183 (Ok (has_value v1)) (
    chk 5184 (let! v2 := deref v1 in Ok (ViType_beq (vi_type v2) Vi_RVR)) (
    chk 5185 (let! v3 := deref v1 in Ok (negb (has_value (vi_dir v3)))) (
    chk 5186 (let! v4 := deref v1 in Ok (has_value (vi_rw v4))) (
    chk 5187 (let! v5 := deref v1 in let! v6 := deref (vi_rw v5) in Ok (N.eqb (rNumber v6) 11%N)) (
    chk 5188 (let! v7 := deref v1 in let! v8 := deref (vi_rw v7) in Ok (RwDesignator_beq (rDesignator v8) Rw_NONE)) (
    chk 5189 (let! v9 := deref v1 in Ok (DistModifier_beq (distModifier (VisibilityGroup_visibility v9)) DM_MORE_THAN)) (
    chk 5190 (let! v10 := deref v1 in Ok (Distance_isReported (VisibilityGroup_visibility v10))) (
    chk 5191 (let! v11 := deref v1 in Ok (has_value (Distance_distance (VisibilityGroup_visibility v11)))) (
    chk 5192 (let! v12 := deref v1 in let! v13 := deref (Distance_distance (VisibilityGroup_visibility v12)) in Ok (near v13 (dlit (6000) 1) (dlit (1) 200))) (
    chk 5193 (let! v14 := deref v1 in Ok (DistUnit_beq (distUnit (VisibilityGroup_visibility v14)) FEET)) (
    chk 5194 (let! v15 := deref v1 in Ok (negb (Distance_isReported (VisibilityGroup_minVisibility v15)))) (
    chk 5195 (let! v16 := deref v1 in Ok (negb (Distance_isReported (VisibilityGroup_maxVisibility v16)))) (
    chk 5196 (let! v17 := deref v1 in let! v18 := (VisibilityGroup_sectorDirections v17) in Ok (N.eqb (N.of_nat (List.length v18)) 0%N)) (
    chk 5197 (let! v19 := deref v1 in Ok (ViTrend_beq (vi_trend v19) Vt_NONE)) (
    chk 5198 (let! v20 := deref v1 in Ok (VisibilityGroup_isValid v20)) (
    step 5200 ((VisibilityGroup_parse "R12/M0400FT" RP_METAR md_default)) (fun v21 => 
    chk 5201 (Ok (has_value v21)) (
    chk 5202 (let! v22 := deref v21 in Ok (ViType_beq (vi_type v22) Vi_RVR)) (
    chk 5203 (let! v23 := deref v21 in Ok (negb (has_value (vi_dir v23)))) (
    chk 5204 (let! v24 := deref v21 in Ok (has_value (vi_rw v24))) (
    chk 5205 (let! v25 := deref v21 in let! v26 := deref (vi_rw v25) in Ok (N.eqb (rNumber v26) 12%N)) (
    chk 5206 (let! v27 := deref v21 in let! v28 := deref (vi_rw v27) in Ok (RwDesignator_beq (rDesignator v28) Rw_NONE)) (
    chk 5207 (let! v29 := deref v21 in Ok (DistModifier_beq (distModifier (VisibilityGroup_visibility v29)) DM_LESS_THAN)) (
    chk 5208 (let! v30 := deref v21 in Ok (Distance_isReported (VisibilityGroup_visibility v30))) (
    chk 5209 (let! v31 := deref v21 in Ok (has_value (Distance_distance (VisibilityGroup_visibility v31)))) (
    chk 5210 (let! v32 := deref v21 in let! v33 := deref (Distance_distance (VisibilityGroup_visibility v32)) in Ok (near v33 (dlit (400) 1) (dlit (1) 200))) (
    chk 5211 (let! v34 := deref v21 in Ok (DistUnit_beq (distUnit (VisibilityGroup_visibility v34)) FEET)) (
    chk 5212 (let! v35 := deref v21 in Ok (negb (Distance_isReported (VisibilityGroup_minVisibility v35)))) (
    chk 5213 (let! v36 := deref v21 in Ok (negb (Distance_isReported (VisibilityGroup_maxVisibility v36)))) (
    chk 5214 (let! v37 := deref v21 in let! v38 := (VisibilityGroup_sectorDirections v37) in Ok (N.eqb (N.of_nat (List.length v38)) 0%N)) (
    chk 5215 (let! v39 := deref v21 in Ok (ViTrend_beq (vi_trend v39) Vt_NONE)) (
    chk 5216 (let! v40 := deref v21 in Ok (VisibilityGroup_isValid v40)) (
    None)))))))))))))))))))))))))))))))))).

Definition t_VisibilityGroup_parseRvrWithTrends : option N :=
    step 5220 ((VisibilityGroup_parse "R05/1100U" RP_METAR md_default)) (fun v1 => 
    chk 5221 (Ok (has_value v1)) (
    chk 5222 (let! v2 := deref v1 in Ok (ViType_beq (vi_type v2) Vi_RVR)) (
    chk 5223 (let! v3 := deref v1 in Ok (negb (has_value (vi_dir v3)))) (
    chk 5224 (let! v4 := deref v1 in Ok (has_value (vi_rw v4))) (
    chk 5225 (let! v5 := deref v1 in let! v6 := deref (vi_rw v5) in Ok (N.eqb (rNumber v6) 5%N)) (
    chk 5226 (let! v7 := deref v1 in let! v8 := deref (vi_rw v7) in Ok (RwDesignator_beq (rDesignator v8) Rw_NONE)) (
    chk 5227 (let! v9 := deref v1 in Ok (DistModifier_beq (distModifier (VisibilityGroup_visibility v9)) DM_NONE)) (
    chk 5228 (let! v10 := deref v1 in Ok (Distance_isReported (VisibilityGroup_visibility v10))) (
    chk 5229 (let! v11 := deref v1 in Ok (has_value (Distance_distance (VisibilityGroup_visibility v11)))) (
    chk 5230 (let! v12 := deref v1 in let! v13 := deref (Distance_distance (VisibilityGroup_visibility v12)) in Ok (near v13 (dlit (1100) 1) (dlit (1) 200))) (
    chk 5231 (let! v14 := deref v1 in Ok (DistUnit_beq (distUnit (VisibilityGroup_visibility v14)) METERS)) (
    chk 5232 (let! v15 := deref v1 in Ok (negb (Distance_isReported (VisibilityGroup_minVisibility v15)))) (
    chk 5233 (let! v16 := deref v1 in Ok (negb (Distance_isReported (VisibilityGroup_maxVisibility v16)))) (
    chk 5234 (let! v17 := deref v1 in let! v18 := (VisibilityGroup_sectorDirections v17) in Ok (N.eqb (N.of_nat (List.length v18)) 0%N)) (
    chk 5235 (let! v19 := deref v1 in Ok (ViTrend_beq (vi_trend v19) Vt_UPWARD)) (
    chk 5236 (let! v20 := deref v1 in Ok (VisibilityGroup_isValid v20)) (
    step 5238 ((VisibilityGroup_parse "R05/1000FT/D" RP_METAR md_default)) (fun v21 => 
    chk 5239 (Ok (has_value v21)) (
    chk 5240 (let! v22 := deref v21 in Ok (ViType_beq (vi_type v22) Vi_RVR)) (
    chk 5241 (let! v23 := deref v21 in Ok (negb (has_value (vi_dir v23)))) (
    chk 5242 (let! v24 := deref v21 in Ok (has_value (vi_rw v24))) (
    chk 5243 (let! v25 := deref v21 in let! v26 := deref (vi_rw v25) in Ok (N.eqb (rNumber v26) 5%N)) (
    chk 5244 (let! v27 := deref v21 in let! v28 := deref (vi_rw v27) in Ok (RwDesignator_beq (rDesignator v28) Rw_NONE)) (
    chk 5245 (let! v29 := deref v21 in Ok (DistModifier_beq (distModifier (VisibilityGroup_visibility v29)) DM_NONE)) (
    chk 5246 (let! v30 := deref v21 in Ok (Distance_isReported (VisibilityGroup_visibility v30))) (
    chk 5247 (let! v31 := deref v21 in Ok (has_value (Distance_distance (VisibilityGroup_visibility v31)))) (
    chk 5248 (let! v32 := deref v21 in let! v33 := deref (Distance_distance (VisibilityGroup_visibility v32)) in Ok (near v33 (dlit (1000) 1) (dlit (1) 200))) (
    chk 5249 (let! v34 := deref v21 in Ok (DistUnit_beq (distUnit (VisibilityGroup_visibility v34)) FEET)) (
    chk 5250 (let! v35 := deref v21 in Ok (negb (Distance_isReported (VisibilityGroup_minVisibility v35)))) (
    chk 5251 (let! v36 := deref v21 in Ok (negb (Distance_isReported (VisibilityGroup_maxVisibility v36)))) (
    chk 5252 (let! v37 := deref v21 in let! v38 := (VisibilityGroup_sectorDirections v37) in Ok (N.eqb (N.of_nat (List.length v38)) 0%N)) (
    chk 5253 (let! v39 := deref v21 in Ok (ViTrend_beq (vi_trend v39) Vt_DOWNWARD)) (
    chk 5254 (let! v40 := deref v21 in Ok (VisibilityGroup_isValid v40)) (
    step 5256 ((VisibilityGroup_parse "R05/M1100FT/N" RP_METAR md_default)) (fun v41 => 
    chk 5257 (Ok (has_value v41)) (
    chk 5258 (let! v42 := deref v41 in Ok (ViType_beq (vi_type v42) Vi_RVR)) (
    chk 5259 (let! v43 := deref v41 in Ok (negb (has_value (vi_dir v43)))) (
    chk 5260 (let! v44 := deref v41 in Ok (has_value (vi_rw v44))) (
    chk 5261 (let! v45 := deref v41 in let! v46 := deref (vi_rw v45) in Ok (N.eqb (rNumber v46) 5%N)) (
    chk 5262 (let! v47 := deref v41 in let! v48 := deref (vi_rw v47) in Ok (RwDesignator_beq (rDesignator v48) Rw_NONE)) (
    chk 5263 (let! v49 := deref v41 in Ok (DistModifier_beq (distModifier (VisibilityGroup_visibility v49)) DM_LESS_THAN)) (
    chk 5264 (let! v50 := deref v41 in Ok (Distance_isReported (VisibilityGroup_visibility v50))) (
    chk 5265 (let! v51 := deref v41 in Ok (has_value (Distance_distance (VisibilityGroup_visibility v51)))) (
    chk 5266 (let! v52 := deref v41 in let! v53 := deref (Distance_distance (VisibilityGroup_visibility v52)) in Ok (near v53 (dlit (1100) 1) (dlit (1) 200))) (
    chk 5267 (let! v54 := deref v41 in Ok (DistUnit_beq (distUnit (VisibilityGroup_visibility v54)) FEET)) (
    chk 5268 (let! v55 := deref v41 in Ok (negb (Distance_isReported (VisibilityGroup_minVisibility v55)))) (
    chk 5269 (let! v56 := deref v41 in Ok (negb (Distance_isReported (VisibilityGroup_maxVisibility v56)))) (
    chk 5270 (let! v57 := deref v41 in let! v58 := (VisibilityGroup_sectorDirections v57) in Ok (N.eqb (N.of_nat (List.length v58)) 0%N)) (
    chk 5271 (let! v59 := deref v41 in Ok (ViTrend_beq (vi_trend v59) Vt_NEUTRAL)) (
    chk 5272 (let! v60 := deref v41 in Ok (VisibilityGroup_isValid v60)) (
    step 5274 ((VisibilityGroup_parse "R05/P1000/" RP_METAR md_default)) (fun v61 => 
    chk 5275 (Ok (has_value v61)) (
    chk 5276 (let! v62 := deref v61 in Ok (ViType_beq (vi_type v62) Vi_RVR)) (
    chk 5277 (let! v63 := deref v61 in Ok (negb (has_value (vi_dir v63)))) (
    chk 5278 (let! v64 := deref v61 in Ok (has_value (vi_rw v64))) (
    chk 5279 (let! v65 := deref v61 in let! v66 := deref (vi_rw v65) in Ok (N.eqb (rNumber v66) 5%N)) (
    chk 5280 (let! v67 := deref v61 in let! v68 := deref (vi_rw v67) in Ok (RwDesignator_beq (rDesignator v68) Rw_NONE)) (
    chk 5281 (let! v69 := deref v61 in Ok (DistModifier_beq (distModifier (VisibilityGroup_visibility v69)) DM_MORE_THAN)) (
    chk 5282 (let! v70 := deref v61 in Ok (Distance_isReported (VisibilityGroup_visibility v70))) (
    chk 5283 (let! v71 := deref v61 in Ok (has_value (Distance_distance (VisibilityGroup_visibility v71)))) (
    chk 5284 (let! v72 := deref v61 in let! v73 := deref (Distance_distance (VisibilityGroup_visibility v72)) in Ok (near v73 (dlit (1000) 1) (dlit (1) 200))) (
    chk 5285 (let! v74 := deref v61 in Ok (DistUnit_beq (distUnit (VisibilityGroup_visibility v74)) METERS)) (
    chk 5286 (let! v75 := deref v61 in Ok (negb (Distance_isReported (VisibilityGroup_minVisibility v75)))) (
    chk 5287 (let! v76 := deref v61 in Ok (negb (Distance_isReported (VisibilityGroup_maxVisibility v76)))) (
    chk 5288 (let! v77 := deref v61 in let! v78 := (VisibilityGroup_sectorDirections v77) in Ok (N.eqb (N.of_nat (List.length v78)) 0%N)) (
    chk 5289 (let! v79 := deref v61 in Ok (ViTrend_beq (vi_trend v79) Vt_NOT_REPORTED)) (
    chk 5290 (let! v80 := deref v61 in Ok (VisibilityGroup_isValid v80)) (
    None)))))))))))))))))))))))))))))))))))))))))))))))))))))))))))))))))))).

Definition t_VisibilityGroup_parseRvrNotReported : option N :=
    step 5294 ((VisibilityGroup_parse "R06R/////" RP_METAR md_default)) (fun v1 => 
    chk 5295 (Ok (has_value v1)) (
    chk 5296 (let! v2 := deref v1 in Ok (ViType_beq (vi_type v2) Vi_RVR)) (
    chk 5297 (let! v3 := deref v1 in Ok (negb (has_value (vi_dir v3)))) (
    chk 5298 (let! v4 := deref v1 in Ok (has_value (vi_rw v4))) (
    chk 5299 (let! v5 := deref v1 in let! v6 := deref (vi_rw v5) in Ok (N.eqb (rNumber v6) 6%N)) (
    chk 5300 (let! v7 := deref v1 in let! v8 := deref (vi_rw v7) in Ok (RwDesignator_beq (rDesignator v8) Rw_RIGHT)) (
    chk 5301 (let! v9 := deref v1 in Ok (negb (Distance_isReported (VisibilityGroup_visibility v9)))) (
    chk 5302 (let! v10 := deref v1 in Ok (negb (Distance_isReported (VisibilityGroup_minVisibility v10)))) (
    chk 5303 (let! v11 := deref v1 in Ok (negb (Distance_isReported (VisibilityGroup_maxVisibility v11)))) (
    chk 5304 (let! v12 := deref v1 in let! v13 := (VisibilityGroup_sectorDirections v12) in Ok (N.eqb (N.of_nat (List.length v13)) 0%N)) (
    chk 5305 (let! v14 := deref v1 in Ok (ViTrend_beq (vi_trend v14) Vt_NONE)) (
    chk 5306 (let! v15 := deref v1 in Ok (VisibilityGroup_isValid v15)) (
    step 5308 ((VisibilityGroup_parse "R06R/////FT" RP_METAR md_default)) (fun v16 => 
    chk 5309 (Ok (has_value v16)) (
    chk 5310 (let! v17 := deref v16 in Ok (ViType_beq (vi_type v17) Vi_RVR)) (
    chk 5311 (let! v18 := deref v16 in Ok (negb (has_value (vi_dir v18)))) (
    chk 5312 (let! v19 := deref v16 in Ok (has_value (vi_rw v19))) (
    chk 5313 (let! v20 := deref v16 in let! v21 := deref (vi_rw v20) in Ok (N.eqb (rNumber v21) 6%N)) (
    chk 5314 (let! v22 := deref v16 in let! v23 := deref (vi_rw v22) in Ok (RwDesignator_beq (rDesignator v23) Rw_RIGHT)) (
    chk 5315 (let! v24 := deref v16 in Ok (negb (Distance_isReported (VisibilityGroup_visibility v24)))) (
    chk 5316 (let! v25 := deref v16 in Ok (negb (Distance_isReported (VisibilityGroup_minVisibility v25)))) (
    chk 5317 (let! v26 := deref v16 in Ok (negb (Distance_isReported (VisibilityGroup_maxVisibility v26)))) (
    chk 5318 (let! v27 := deref v16 in let! v28 := (VisibilityGroup_sectorDirections v27) in Ok (N.eqb (N.of_nat (List.length v28)) 0%N)) (
    chk 5319 (let! v29 := deref v16 in Ok (ViTrend_beq (vi_trend v29) Vt_NONE)) (
    chk 5320 (let! v30 := deref v16 in Ok (VisibilityGroup_isValid v30)) (
    None)))))))))))))))))))))))))).

Definition t_VisibilityGroup_parseRvrNotReportedRunway : option N :=
    step 5324 ((VisibilityGroup_parse "R///////" RP_METAR md_default)) (fun v1 => 
    chk 5325 (Ok (has_value v1)) (
    chk 5326 (let! v2 := deref v1 in Ok (ViType_beq (vi_type v2) Vi_RVR)) (
    chk 5327 (let! v3 := deref v1 in Ok (negb (has_value (vi_dir v3)))) (
    chk 5328 (let! v4 := deref v1 in Ok (negb (has_value (vi_rw v4)))) (
    chk 5329 (let! v5 := deref v1 in Ok (negb (Distance_isReported (VisibilityGroup_visibility v5)))) (
    chk 5330 (let! v6 := deref v1 in Ok (negb (Distance_isReported (VisibilityGroup_minVisibility v6)))) (
    chk 5331 (let! v7 := deref v1 in Ok (negb (Distance_isReported (VisibilityGroup_maxVisibility v7)))) (
    chk 5332 (let! v8 := deref v1 in let! v9 := (VisibilityGroup_sectorDirections v8) in Ok (N.eqb (N.of_nat (List.length v9)) 0%N)) (
    chk 5333 (let! v10 := deref v1 in Ok (ViTrend_beq (vi_trend v10) Vt_NONE)) (
    chk 5334 (let! v11 := deref v1 in Ok (VisibilityGroup_isValid v11)) (
    step 5336 ((VisibilityGroup_parse "R///////FT" RP_METAR md_default)) (fun v12 => 
    chk 5337 (Ok (has_value v12)) (
    chk 5338 (let! v13 := deref v12 in Ok (ViType_beq (vi_type v13) Vi_RVR)) (
    chk 5339 (let! v14 := deref v12 in Ok (negb (has_value (vi_dir v14)))) (
    chk 5340 (let! v15 := deref v12 in Ok (negb (has_value (vi_rw v15)))) (
    chk 5341 (let! v16 := deref v12 in Ok (negb (Distance_isReported (VisibilityGroup_visibility v16)))) (
    chk 5342 (let! v17 := deref v12 in Ok (negb (Distance_isReported (VisibilityGroup_minVisibility v17)))) (
    chk 5343 (let! v18 := deref v12 in Ok (negb (Distance_isReported (VisibilityGroup_maxVisibility v18)))) (
    chk 5344 (let! v19 := deref v12 in let! v20 := (VisibilityGroup_sectorDirections v19) in Ok (N.eqb (N.of_nat (List.length v20)) 0%N)) (
    chk 5345 (let! v21 := deref v12 in Ok (ViTrend_beq (vi_trend v21) Vt_NONE)) (
    chk 5346 (let! v22 := deref v12 in Ok (VisibilityGroup_isValid v22)) (
    None)))))))))))))))))))))).

Definition t_VisibilityGroup_parseRvrNotReportedWithTrend : option N :=
    step 5350 ((VisibilityGroup_parse "R06R/////N" RP_METAR md_default)) (fun v1 => 
    chk 5351 (Ok (has_value v1)) (
    chk 5352 (let! v2 := deref v1 in Ok (ViType_beq (vi_type v2) Vi_RVR)) (
    chk 5353 (let! v3 := deref v1 in Ok (negb (has_value (vi_dir v3)))) (
    chk 5354 (let! v4 := deref v1 in Ok (has_value (vi_rw v4))) (
    chk 5355 (let! v5 := deref v1 in let! v6 := deref (vi_rw v5) in Ok (N.eqb (rNumber v6) 6%N)) (
    chk 5356 (let! v7 := deref v1 in let! v8 := deref (vi_rw v7) in Ok (RwDesignator_beq (rDesignator v8) Rw_RIGHT)) (
    chk 5357 (let! v9 := deref v1 in Ok (negb (Distance_isReported (VisibilityGroup_visibility v9)))) (
    chk 5358 (let! v10 := deref v1 in Ok (negb (Distance_isReported (VisibilityGroup_minVisibility v10)))) (
    chk 5359 (let! v11 := deref v1 in Ok (negb (Distance_isReported (VisibilityGroup_maxVisibility v11)))) (
    chk 5360 (let! v12 := deref v1 in let! v13 := (VisibilityGroup_sectorDirections v12) in Ok (N.eqb (N.of_nat (List.length v13)) 0%N)) (
    chk 5361 (let! v14 := deref v1 in Ok (ViTrend_beq (vi_trend v14) Vt_NEUTRAL)) (
    chk 5362 (let! v15 := deref v1 in Ok (VisibilityGroup_isValid v15)) (
    step 5364 ((VisibilityGroup_parse "R06R/////FT/N" RP_METAR md_default)) (fun v16 => 
    chk 5365 (Ok (has_value v16)) (
    chk 5366 (let! v17 := deref v16 in Ok (ViType_beq (vi_type v17) Vi_RVR)) (
    chk 5367 (let! v18 := deref v16 in Ok (negb (has_value (vi_dir v18)))) (
    chk 5368 (let! v19 := deref v16 in Ok (has_value (vi_rw v19))) (
    chk 5369 (let! v20 := deref v16 in let! v21 := deref (vi_rw v20) in Ok (N.eqb (rNumber v21) 6%N)) (
    chk 5370 (let! v22 := deref v16 in let! v23 := deref (vi_rw v22) in Ok (RwDesignator_beq (rDesignator v23) Rw_RIGHT)) (
    chk 5371 (let! v24 := deref v16 in Ok (negb (Distance_isReported (VisibilityGroup_visibility v24)))) (
    chk 5372 (let! v25 := deref v16 in Ok (negb (Distance_isReported (VisibilityGroup_minVisibility v25)))) (
    chk 5373 (let! v26 := deref v16 in Ok (negb (Distance_isReported (VisibilityGroup_maxVisibility v26)))) (
    chk 5374 (let! v27 := deref v16 in let! v28 := (VisibilityGroup_sectorDirections v27) in Ok (N.eqb (N.of_nat (List.length v28)) 0%N)) (
    chk 5375 (let! v29 := deref v16 in Ok (ViTrend_beq (vi_trend v29) Vt_NEUTRAL)) (
    chk 5376 (let! v30 := deref v16 in Ok (VisibilityGroup_isValid v30)) (
    None)))))))))))))))))))))))))).

Definition t_VisibilityGroup_parseRvrNotReportedRunwayWithTrend : option N :=
    step 5380 ((VisibilityGroup_parse "R///////N" RP_METAR md_default)) (fun v1 => 
    chk 5381 (Ok (has_value v1)) (
    chk 5382 (let! v2 := deref v1 in Ok (ViType_beq (vi_type v2) Vi_RVR)) (
    chk 5383 (let! v3 := deref v1 in Ok (negb (has_value (vi_dir v3)))) (
    chk 5384 (let! v4 := deref v1 in Ok (negb (has_value (vi_rw v4)))) (
    chk 5385 (let! v5 := deref v1 in Ok (negb (Distance_isReported (VisibilityGroup_visibility v5)))) (
    chk 5386 (let! v6 := deref v1 in Ok (negb (Distance_isReported (VisibilityGroup_minVisibility v6)))) (
    chk 5387 (let! v7 := deref v1 in Ok (negb (Distance_isReported (VisibilityGroup_maxVisibility v7)))) (
    chk 5388 (let! v8 := deref v1 in let! v9 := (VisibilityGroup_sectorDirections v8) in Ok (N.eqb (N.of_nat (List.length v9)) 0%N)) (
    chk 5389 (let! v10 := deref v1 in Ok (ViTrend_beq (vi_trend v10) Vt_NEUTRAL)) (
    chk 5390 (let! v11 := deref v1 in Ok (VisibilityGroup_isValid v11)) (
    step 5392 ((VisibilityGroup_parse "R///////FT/N" RP_METAR md_default)) (fun v12 => 
    chk 5393 (Ok (has_value v12)) (
    chk 5394 (let! v13 := deref v12 in Ok (ViType_beq (vi_type v13) Vi_RVR)) (
    chk 5395 (let! v14 := deref v12 in Ok (negb (has_value (vi_dir v14)))) (
    chk 5396 (let! v15 := deref v12 in Ok (negb (has_value (vi_rw v15)))) (
    chk 5397 (let! v16 := deref v12 in Ok (negb (Distance_isReported (VisibilityGroup_visibility v16)))) (
    chk 5398 (let! v17 := deref v12 in Ok (negb (Distance_isReported (VisibilityGroup_minVisibility v17)))) (
    chk 5399 (let! v18 := deref v12 in Ok (negb (Distance_isReported (VisibilityGroup_maxVisibility v18)))) (
    chk 5400 (let! v19 := deref v12 in let! v20 := (VisibilityGroup_sectorDirections v19) in Ok (N.eqb (N.of_nat (List.length v20)) 0%N)) (
    chk 5401 (let! v21 := deref v12 in Ok (ViTrend_beq (vi_trend v21) Vt_NEUTRAL)) (
    chk 5402 (let! v22 := deref v12 in Ok (VisibilityGroup_isValid v22)) (
    None)))))))))))))))))))))).

Definition t_VisibilityGroup_parseRvrNotReportedWithTrendNotReported : option N :=
    step 5406 ((VisibilityGroup_parse "R06R//////" RP_METAR md_default)) (fun v1 => 
    chk 5407 (Ok (has_value v1)) (
    chk 5408 (let! v2 := deref v1 in Ok (ViType_beq (vi_type v2) Vi_RVR)) (
    chk 5409 (let! v3 := deref v1 in Ok (negb (has_value (vi_dir v3)))) (
    chk 5410 (let! v4 := deref v1 in Ok (has_value (vi_rw v4))) (
    chk 5411 (let! v5 := deref v1 in let! v6 := deref (vi_rw v5) in Ok (N.eqb (rNumber v6) 6%N)) (
    chk 5412 (let! v7 := deref v1 in let! v8 := deref (vi_rw v7) in Ok (RwDesignator_beq (rDesignator v8) Rw_RIGHT)) (
    chk 5413 (let! v9 := deref v1 in Ok (negb (Distance_isReported (VisibilityGroup_visibility v9)))) (
    chk 5414 (let! v10 := deref v1 in Ok (negb (Distance_isReported (VisibilityGroup_minVisibility v10)))) (
    chk 5415 (let! v11 := deref v1 in Ok (negb (Distance_isReported (VisibilityGroup_maxVisibility v11)))) (
    chk 5416 (let! v12 := deref v1 in let! v13 := (VisibilityGroup_sectorDirections v12) in Ok (N.eqb (N.of_nat (List.length v13)) 0%N)) (
    chk 5417 (let! v14 := deref v1 in Ok (ViTrend_beq (vi_trend v14) Vt_NOT_REPORTED)) (
    chk 5418 (let! v15 := deref v1 in Ok (VisibilityGroup_isValid v15)) (
    step 5420 ((VisibilityGroup_parse "R06R/////FT//" RP_METAR md_default)) (fun v16 => 
    chk 5421 (Ok (has_value v16)) (
    chk 5422 (let! v17 := deref v16 in Ok (ViType_beq (vi_type v17) Vi_RVR)) (
    chk 5423 (let! v18 := deref v16 in Ok (negb (has_value (vi_dir v18)))) (
    chk 5424 (let! v19 := deref v16 in Ok (has_value (vi_rw v19))) (
    chk 5425 (let! v20 := deref v16 in let! v21 := deref (vi_rw v20) in Ok (N.eqb (rNumber v21) 6%N)) (
    chk 5426 (let! v22 := deref v16 in let! v23 := deref (vi_rw v22) in Ok (RwDesignator_beq (rDesignator v23) Rw_RIGHT)) (
    chk 5427 (let! v24 := deref v16 in Ok (negb (Distance_isReported (VisibilityGroup_visibility v24)))) (
    chk 5428 (let! v25 := deref v16 in Ok (negb (Distance_isReported (VisibilityGroup_minVisibility v25)))) (
    chk 5429 (let! v26 := deref v16 in Ok (negb (Distance_isReported (VisibilityGroup_maxVisibility v26)))) (
    chk 5430 (let! v27 := deref v16 in let! v28 := (VisibilityGroup_sectorDirections v27) in Ok (N.eqb (N.of_nat (List.length v28)) 0%N)) (
    chk 5431 (let! v29 := deref v16 in Ok (ViTrend_beq (vi_trend v29) Vt_NOT_REPORTED)) (
    chk 5432 (let! v30 := deref v16 in Ok (VisibilityGroup_isValid v30)) (
    None)))))))))))))))))))))))))).

Definition t_VisibilityGroup_parseRvrFeetExtraTrendDelimiter : option N :=
    step 5436 ((VisibilityGroup_parse "R08/6000FT/" RP_METAR md_default)) (fun v1 => 
    chk 5437 (Ok (has_value v1)) (
    chk 5439 (let! v2 := deref v1 in Ok (ViType_beq (vi_type v2) Vi_RVR)) (
    chk 5440 (let! v3 := deref v1 in Ok (negb (has_value (vi_dir v3)))) (
    chk 5442 (let! v4 := deref v1 in Ok (has_value (vi_rw v4))) (
    chk 5443 (let! v5 := deref v1 in let! v6 := deref (vi_rw v5) in Ok (N.eqb (rNumber v6) 8%N)) (
    chk 5444 (let! v7 := deref v1 in let! v8 := deref (vi_rw v7) in Ok (RwDesignator_beq (rDesignator v8) Rw_NONE)) (
    chk 5446 (let! v9 := deref v1 in Ok (DistModifier_beq (distModifier (VisibilityGroup_visibility v9)) DM_NONE)) (
    chk 5447 (let! v10 := deref v1 in Ok (Distance_isReported (VisibilityGroup_visibility v10))) (
    chk 5448 (let! v11 := deref v1 in Ok (has_value (Distance_distance (VisibilityGroup_visibility v11)))) (
    chk 5449 (let! v12 := deref v1 in let! v13 := deref (Distance_distance (VisibilityGroup_visibility v12)) in Ok (near v13 (dlit (6000) 1) (dlit (1) 200))) (
    chk 5450 (let! v14 := deref v1 in Ok (DistUnit_beq (distUnit (VisibilityGroup_visibility v14)) FEET)) (
    chk 5452 (let! v15 := deref v1 in Ok (negb (Distance_isReported (VisibilityGroup_minVisibility v15)))) (
    chk 5453 (let! v16 := deref v1 in Ok (negb (Distance_isReported (VisibilityGroup_maxVisibility v16)))) (
    chk 5454 (let! v17 := deref v1 in let! v18 := (VisibilityGroup_sectorDirections v17) in Ok (N.eqb (N.of_nat (List.length v18)) 0%N)) (
    chk 5456 (let! v19 := deref v1 in Ok (ViTrend_beq (vi_trend v19) Vt_NONE)) (
    chk 5457 (let! v20 := deref v1 in Ok (VisibilityGroup_isValid v20)) (
    None))))))))))))))))).

Definition t_VisibilityGroup_parseRvrFeetMissingTrendDelimiter : option N :=
    step 5461 ((VisibilityGroup_parse "R08/6000FTD" RP_METAR md_default)) (fun v1 => 
    chk 5462 (Ok (has_value v1)) (
    chk 5464 (let! v2 := deref v1 in Ok (ViType_beq (vi_type v2) Vi_RVR)) (
    chk 5465 (let! v3 := deref v1 in Ok (negb (has_value (vi_dir v3)))) (
    chk 5467 (let! v4 := deref v1 in Ok (has_value (vi_rw v4))) (
    chk 5468 (let! v5 := deref v1 in let! v6 := deref (vi_rw v5) in Ok (N.eqb (rNumber v6) 8%N)) (
    chk 5469 (let! v7 := deref v1 in let! v8 := deref (vi_rw v7) in Ok (RwDesignator_beq (rDesignator v8) Rw_NONE)) (
    chk 5471 (let! v9 := deref v1 in Ok (DistModifier_beq (distModifier (VisibilityGroup_visibility v9)) DM_NONE)) (
    chk 5472 (let! v10 := deref v1 in Ok (Distance_isReported (VisibilityGroup_visibility v10))) (
    chk 5473 (let! v11 := deref v1 in Ok (has_value (Distance_distance (VisibilityGroup_visibility v11)))) (
    chk 5474 (let! v12 := deref v1 in let! v13 := deref (Distance_distance (VisibilityGroup_visibility v12)) in Ok (near v13 (dlit (6000) 1) (dlit (1) 200))) (
    chk 5475 (let! v14 := deref v1 in Ok (DistUnit_beq (distUnit (VisibilityGroup_visibility v14)) FEET)) (
    chk 5477 (let! v15 := deref v1 in Ok (negb (Distance_isReported (VisibilityGroup_minVisibility v15)))) (
    chk 5478 (let! v16 := deref v1 in Ok (negb (Distance_isReported (VisibilityGroup_maxVisibility v16)))) (
    chk 5479 (let! v17 := deref v1 in let! v18 := (VisibilityGroup_sectorDirections v17) in Ok (N.eqb (N.of_nat (List.length v18)) 0%N)) (
    chk 5481 (let! v19 := deref v1 in Ok (ViTrend_beq (vi_trend v19) Vt_DOWNWARD)) (
    chk 5482 (let! v20 := deref v1 in Ok (VisibilityGroup_isValid v20)) (
    None))))))))))))))))).

Definition t_VisibilityGroup_parseVariableRvrMeters : option N :=
    step 5492 ((VisibilityGroup_parse "R09/0500V0800" RP_METAR md_default)) (fun v1 => 
    chk 5493 (Ok (has_value v1)) (
    chk 5495 (let! v2 := deref v1 in Ok (ViType_beq (vi_type v2) Vi_VARIABLE_RVR)) (
    chk 5496 (let! v3 := deref v1 in Ok (negb (Distance_isReported (VisibilityGroup_visibility v3)))) (
    chk 5497 (let! v4 := deref v1 in Ok (negb (has_value (vi_dir v4)))) (
    chk 5499 (let! v5 := deref v1 in Ok (has_value (vi_rw v5))) (
    chk 5500 (let! v6 := deref v1 in let! v7 := deref (vi_rw v6) in Ok (N.eqb (rNumber v7) 9%N)) (
    chk 5501 (let! v8 := deref v1 in let! v9 := deref (vi_rw v8) in Ok (RwDesignator_beq (rDesignator v9) Rw_NONE)) (
    chk 5503 (let! v10 := deref v1 in Ok (DistModifier_beq (distModifier (VisibilityGroup_minVisibility v10)) DM_NONE)) (
    chk 5504 (let! v11 := deref v1 in Ok (Distance_isReported (VisibilityGroup_minVisibility v11))) (
    chk 5505 (let! v12 := deref v1 in Ok (has_value (Distance_distance (VisibilityGroup_minVisibility v12)))) (
    chk 5506 (let! v13 := deref v1 in let! v14 := deref (Distance_distance (VisibilityGroup_minVisibility v13)) in Ok (near v14 (dlit (500) 1) (dlit (1) 200))) (
    chk 5507 (let! v15 := deref v1 in Ok (DistUnit_beq (distUnit (VisibilityGroup_minVisibility v15)) METERS)) (
    chk 5509 (let! v16 := deref v1 in Ok (DistModifier_beq (distModifier (VisibilityGroup_maxVisibility v16)) DM_NONE)) (
    chk 5510 (let! v17 := deref v1 in Ok (Distance_isReported (VisibilityGroup_maxVisibility v17))) (
    chk 5511 (let! v18 := deref v1 in Ok (has_value (Distance_distance (VisibilityGroup_maxVisibility v18)))) (
    chk 5512 (let! v19 := deref v1 in let! v20 := deref (Distance_distance (VisibilityGroup_maxVisibility v19)) in Ok (near v20 (dlit (800) 1) (dlit (1) 200))) (
    chk 5513 (let! v21 := deref v1 in Ok (DistUnit_beq (distUnit (VisibilityGroup_maxVisibility v21)) METERS)) (
    chk 5515 (let! v22 := deref v1 in let! v23 := (VisibilityGroup_sectorDirections v22) in Ok (N.eqb (N.of_nat (List.length v23)) 0%N)) (
    chk 5517 (let! v24 := deref v1 in Ok (ViTrend_beq (vi_trend v24) Vt_NONE)) (
    chk 5518 (let! v25 := deref v1 in Ok (VisibilityGroup_isValid v25)) (
    None))))))))))))))))))))).

Definition t_VisibilityGroup_parseVariableRvrMetersWithModifiers : option N :=
    step 5522 ((VisibilityGroup_parse "R09/M0500V0800" RP_METAR md_default)) (fun v1 => 
    chk 5523 (Ok (has_value v1)) (
    chk 5524 (let! v2 := deref v1 in Ok (ViType_beq (vi_type v2) Vi_VARIABLE_RVR)) (
    chk 5525 (let! v3 := deref v1 in Ok (negb (Distance_isReported (VisibilityGroup_visibility v3)))) (
    chk 5526 (let! v4 := deref v1 in Ok (negb (has_value (vi_dir v4)))) (
    chk 5527 (let! v5 := deref v1 in Ok (has_value (vi_rw v5))) (
    chk 5528 (let! v6 := deref v1 in let! v7 := deref (vi_rw v6) in Ok (N.eqb (rNumber v7) 9%N)) (
    chk 5529 (let! v8 := deref v1 in let! v9 := deref (vi_rw v8) in Ok (RwDesignator_beq (rDesignator v9) Rw_NONE)) (
    chk 5530 (let! v10 := deref v1 in Ok (DistModifier_beq (distModifier (VisibilityGroup_minVisibility v10)) DM_LESS_THAN)) (
    chk 5531 (let! v11 := deref v1 in Ok (Distance_isReported (VisibilityGroup_minVisibility v11))) (
    chk 5532 (let! v12 := deref v1 in Ok (has_value (Distance_distance (VisibilityGroup_minVisibility v12)))) (
    chk 5533 (let! v13 := deref v1 in let! v14 := deref (Distance_distance (VisibilityGroup_minVisibility v13)) in Ok (near v14 (dlit (500) 1) (dlit (1) 200))) (
    chk 5534 (let! v15 := deref v1 in Ok (DistUnit_beq (distUnit (VisibilityGroup_minVisibility v15)) METERS)) (
    chk 5535 (let! v16 := deref v1 in Ok (DistModifier_beq (distModifier (VisibilityGroup_maxVisibility v16)) DM_NONE)) (
    chk 5536 (let! v17 := deref v1 in Ok (Distance_isReported (VisibilityGroup_maxVisibility v17))) (
    chk 5537 (let! v18 := deref v1 in Ok (has_value (Distance_distance (VisibilityGroup_maxVisibility v18)))) (
    chk 5538 (let! v19 := deref v1 in let! v20 := deref (Distance_distance (VisibilityGroup_maxVisibility v19)) in Ok (near v20 (dlit (800) 1) (dlit (1) 200))) (
    chk 5539 (let! v21 := deref v1 in Ok (DistUnit_beq (distUnit (VisibilityGroup_maxVisibility v21)) METERS)) (
    chk 5540 (let! v22 := deref v1 in let! v23 := (VisibilityGroup_sectorDirections v22) in Ok (N.eqb (N.of_nat (List.length v23)) 0%N)) (
    chk 5541 (let! v24 := deref v1 in Ok (ViTrend_beq (vi_trend v24) Vt_NONE)) (
    chk 5542 (let! v25 := deref v1 in Ok (VisibilityGroup_isValid v25)) (
    step 5544 ((VisibilityGroup_parse "R09/0500VP0800" RP_METAR md_default)) (fun v26 => 
    chk 5545 (Ok (has_value v26)) (
    chk 5546 (let! v27 := deref v26 in Ok (ViType_beq (vi_type v27) Vi_VARIABLE_RVR)) (
    chk 5547 (let! v28 := deref v26 in Ok (negb (Distance_isReported (VisibilityGroup_visibility v28)))) (
    chk 5548 (let! v29 := deref v26 in Ok (negb (has_value (vi_dir v29)))) (
    chk 5549 (let! v30 := deref v26 in Ok (has_value (vi_rw v30))) (
    chk 5550 (let! v31 := deref v26 in let! v32 := deref (vi_rw v31) in Ok (N.eqb (rNumber v32) 9%N)) (
    chk 5551 (let! v33 := deref v26 in let! v34 := deref (vi_rw v33) in Ok (RwDesignator_beq (rDesignator v34) Rw_NONE)) (
    chk 5552 (let! v35 := deref v26 in Ok (DistModifier_beq (distModifier (VisibilityGroup_minVisibility v35)) DM_NONE)) (
    chk 5553 (let! v36 := deref v26 in Ok (Distance_isReported (VisibilityGroup_minVisibility v36))) (
    chk 5554 (let! v37 := deref v26 in Ok (has_value (Distance_distance (VisibilityGroup_minVisibility v37)))) (
    chk 5555 (let! v38 := deref v26 in let! v39 := deref (Distance_distance (VisibilityGroup_minVisibility v38)) in Ok (near v39 (dlit (500) 1) (dlit (1) 200))) (
    chk 5556 (let! v40 := deref v26 in Ok (DistUnit_beq (distUnit (VisibilityGroup_minVisibility v40)) METERS)) (
    chk 5557 (let! v41 := deref v26 in Ok (DistModifier_beq (distModifier (VisibilityGroup_maxVisibility v41)) DM_MORE_THAN)) (
    chk 5558 (let! v42 := deref v26 in Ok (Distance_isReported (VisibilityGroup_maxVisibility v42))) (
    chk 5559 (let! v43 := deref v26 in Ok (has_value (Distance_distance (VisibilityGroup_maxVisibility v43)))) (
    chk 5560 (let! v44 := deref v26 in let! v45 := deref (Distance_distance (VisibilityGroup_maxVisibility v44)) in Ok (near v45 (dlit (800) 1) (dlit (1) 200))) (
    chk 5561 (let! v46 := deref v26 in Ok (DistUnit_beq (distUnit (VisibilityGroup_maxVisibility v46)) METERS)) (
    chk 5562 (let! v47 := deref v26 in let! v48 := (VisibilityGroup_sectorDirections v47) in Ok (N.eqb (N.of_nat (List.length v48)) 0%N)) (
    chk 5563 (let! v49 := deref v26 in Ok (ViTrend_beq (vi_trend v49) Vt_NONE)) (
    chk 5564 (let! v50 := deref v26 in Ok (VisibilityGroup_isValid v50)) (
    step 5566 ((VisibilityGroup_parse "R09/M0500VP0800" RP_METAR md_default)) (fun v51 => 
    chk 5567 (Ok (has_value v51)) (
    chk 5568 (let! v52 := deref v51 in Ok (ViType_beq (vi_type v52) Vi_VARIABLE_RVR)) (
    chk 5569 (let! v53 := deref v51 in Ok (negb (Distance_isReported (VisibilityGroup_visibility v53)))) (
    chk 5570 (let! v54 := deref v51 in Ok (negb (has_value (vi_dir v54)))) (
    chk 5571 (let! v55 := deref v51 in Ok (has_value (vi_rw v55))) (
    chk 5572 (let! v56 := deref v51 in let! v57 := deref (vi_rw v56) in Ok (N.eqb (rNumber v57) 9%N)) (
    chk 5573 (let! v58 := deref v51 in let! v59 := deref (vi_rw v58) in Ok (RwDesignator_beq (rDesignator v59) Rw_NONE)) (
    chk 5574 (let! v60 := deref v51 in Ok (DistModifier_beq (distModifier (VisibilityGroup_minVisibility v60)) DM_LESS_THAN)) (
    chk 5575 (let! v61 := deref v51 in Ok (Distance_isReported (VisibilityGroup_minVisibility v61))) (
    chk 5576 (let! v62 := deref v51 in Ok (has_value (Distance_distance (VisibilityGroup_minVisibility v62)))) (
    chk 5577 (let! v63 := deref v51 in let! v64 := deref (Distance_distance (VisibilityGroup_minVisibility v63)) in Ok (near v64 (dlit (500) 1) (dlit (1) 200))) (
    chk 5578 (let! v65 := deref v51 in Ok (DistUnit_beq (distUnit (VisibilityGroup_minVisibility v65)) METERS)) (
    chk 5579 (let! v66 := deref v51 in Ok (DistModifier_beq (distModifier (VisibilityGroup_maxVisibility v66)) DM_MORE_THAN)) (
    chk 5580 (let! v67 := deref v51 in Ok (Distance_isReported (VisibilityGroup_maxVisibility v67))) (
    chk 5581 (let! v68 := deref v51 in Ok (has_value (Distance_distance (VisibilityGroup_maxVisibility v68)))) (
    chk 5582 (let! v69 := deref v51 in let! v70 := deref (Distance_distance (VisibilityGroup_maxVisibility v69)) in Ok (near v70 (dlit (800) 1) (dlit (1) 200))) (
    chk 5583 (let! v71 := deref v51 in Ok (DistUnit_beq (distUnit (VisibilityGroup_maxVisibility v71)) METERS)) (
    chk 5584 (let! v72 := deref v51 in let! v73 := (VisibilityGroup_sectorDirections v72) in Ok (N.eqb (N.of_nat (List.length v73)) 0%N)) (
    chk 5585 (let! v74 := deref v51 in Ok (ViTrend_beq (vi_trend v74) Vt_NONE)) (
    chk 5586 (let! v75 := deref v51 in Ok (VisibilityGroup_isValid v75)) (
    None))))))))))))))))))))))))))))))))))))))))))))))))))))))))))))))).

Definition t_VisibilityGroup_parseVariableRvrFeet : option N :=
    step 5589 ((VisibilityGroup_parse "R14/0600V1200FT" RP_METAR md_default)) (fun v1 => 
    chk 5590 (Ok (has_value v1)) (
    chk 5592 (let! v2 := deref v1 in Ok (ViType_beq (vi_type v2) Vi_VARIABLE_RVR)) (
    chk 5593 (let! v3 := deref v1 in Ok (negb (Distance_isReported (VisibilityGroup_visibility v3)))) (
    chk 5594 (let! v4 := deref v1 in Ok (negb (has_value (vi_dir v4)))) (
    chk 5596 (let! v5 := deref v1 in Ok (has_value (vi_rw v5))) (
    chk 5597 (let! v6 := deref v1 in let! v7 := deref (vi_rw v6) in Ok (N.eqb (rNumber v7) 14%N)) (
    chk 5598 (let! v8 := deref v1 in let! v9 := deref (vi_rw v8) in Ok (RwDesignator_beq (rDesignator v9) Rw_NONE)) (
    chk 5600 (let! v10 := deref v1 in Ok (DistModifier_beq (distModifier (VisibilityGroup_minVisibility v10)) DM_NONE)) (
    chk 5601 (let! v11 := deref v1 in Ok (Distance_isReported (VisibilityGroup_minVisibility v11))) (
    chk 5602 (let! v12 := deref v1 in Ok (has_value (Distance_distance (VisibilityGroup_minVisibility v12)))) (
    chk 5603 (let! v13 := deref v1 in let! v14 := deref (Distance_distance (VisibilityGroup_minVisibility v13)) in Ok (near v14 (dlit (600) 1) (dlit (1) 200))) (
    chk 5604 (let! v15 := deref v1 in Ok (DistUnit_beq (distUnit (VisibilityGroup_minVisibility v15)) FEET)) (
    chk 5606 (let! v16 := deref v1 in Ok (DistModifier_beq (distModifier (VisibilityGroup_maxVisibility v16)) DM_NONE)) (
    chk 5607 (let! v17 := deref v1 in Ok (Distance_isReported (VisibilityGroup_maxVisibility v17))) (
    chk 5608 (let! v18 := deref v1 in Ok (has_value (Distance_distance (VisibilityGroup_maxVisibility v18)))) (
    chk 5609 (let! v19 := deref v1 in let! v20 := deref (Distance_distance (VisibilityGroup_maxVisibility v19)) in Ok (near v20 (dlit (1200) 1) (dlit (1) 200))) (
    chk 5610 (let! v21 := deref v1 in Ok (DistUnit_beq (distUnit (VisibilityGroup_maxVisibility v21)) FEET)) (
    chk 5612 (let! v22 := deref v1 in let! v23 := (VisibilityGroup_sectorDirections v22) in Ok (N.eqb (N.of_nat (List.length v23)) 0%N)) (
    chk 5614 (let! v24 := deref v1 in Ok (ViTrend_beq (vi_trend v24) Vt_NONE)) (
    chk 5615 (let! v25 := deref v1 in Ok (VisibilityGroup_isValid v25)) (
    None))))))))))))))))))))).

Definition t_VisibilityGroup_parseVariableRvrFeetWithModifiers : option N :=
    step 5619 ((VisibilityGroup_parse "R14/M0600V1200FT" RP_METAR md_default)) (fun v1 => 
    chk 5620 (Ok (has_value v1)) (
    chk 5621 (let! v2 := deref v1 in Ok (ViType_beq (vi_type v2) Vi_VARIABLE_RVR)) (
    chk 5622 (let! v3 := deref v1 in Ok (negb (Distance_isReported (VisibilityGroup_visibility v3)))) (
    chk 5623 (let! v4 := deref v1 in Ok (negb (has_value (vi_dir v4)))) (
    chk 5624 (let! v5 := deref v1 in Ok (has_value (vi_rw v5))) (
    chk 5625 (let! v6 := deref v1 in let! v7 := deref (vi_rw v6) in Ok (N.eqb (rNumber v7) 14%N)) (
    chk 5626 (let! v8 := deref v1 in let! v9 := deref (vi_rw v8) in Ok (RwDesignator_beq (rDesignator v9) Rw_NONE)) (
    chk 5627 (let! v10 := deref v1 in Ok (DistModifier_beq (distModifier (VisibilityGroup_minVisibility v10)) DM_LESS_THAN)) (
    chk 5628 (let! v11 := deref v1 in Ok (Distance_isReported (VisibilityGroup_minVisibility v11))) (
    chk 5629 (let! v12 := deref v1 in Ok (has_value (Distance_distance (VisibilityGroup_minVisibility v12)))) (
    chk 5630 (let! v13 := deref v1 in let! v14 := deref (Distance_distance (VisibilityGroup_minVisibility v13)) in Ok (near v14 (dlit (600) 1) (dlit (1) 200))) (
    chk 5631 (let! v15 := deref v1 in Ok (DistUnit_beq (distUnit (VisibilityGroup_minVisibility v15)) FEET)) (
    chk 5632 (let! v16 := deref v1 in Ok (DistModifier_beq (distModifier (VisibilityGroup_maxVisibility v16)) DM_NONE)) (
    chk 5633 (let! v17 := deref v1 in Ok (Distance_isReported (VisibilityGroup_maxVisibility v17))) (
    chk 5634 (let! v18 := deref v1 in Ok (has_value (Distance_distance (VisibilityGroup_maxVisibility v18)))) (
    chk 5635 (let! v19 := deref v1 in let! v20 := deref (Distance_distance (VisibilityGroup_maxVisibility v19)) in Ok (near v20 (dlit (1200) 1) (dlit (1) 200))) (
    chk 5636 (let! v21 := deref v1 in Ok (DistUnit_beq (distUnit (VisibilityGroup_maxVisibility v21)) FEET)) (
    chk 5637 (let! v22 := deref v1 in let! v23 := (VisibilityGroup_sectorDirections v22) in Ok (N.eqb (N.of_nat (List.length v23)) 0%N)) (
    chk 5638 (let! v24 := deref v1 in Ok (ViTrend_beq (vi_trend v24) Vt_NONE)) (
    chk 5639 (let! v25 := deref v1 in Ok (VisibilityGroup_isValid v25)) (
    step 5641 ((VisibilityGroup_parse "R14/0600VP1200FT" RP_METAR md_default)) (fun v26 => 
    chk 5642 (Ok (has_value v26)) (
    chk 5643 (let! v27 := deref v26 in Ok (ViType_beq (vi_type v27) Vi_VARIABLE_RVR)) (
    chk 5644 (let! v28 := deref v26 in Ok (negb (Distance_isReported (VisibilityGroup_visibility v28)))) (
    chk 5645 (let! v29 := deref v26 in Ok (negb (has_value (vi_dir v29)))) (
    chk 5646 (let! v30 := deref v26 in Ok (has_value (vi_rw v30))) (
    chk 5647 (let! v31 := deref v26 in let! v32 := deref (vi_rw v31) in Ok (N.eqb (rNumber v32) 14%N)) (
    chk 5648 (let! v33 := deref v26 in let! v34 := deref (vi_rw v33) in Ok (RwDesignator_beq (rDesignator v34) Rw_NONE)) (
    chk 5649 (let! v35 := deref v26 in Ok (DistModifier_beq (distModifier (VisibilityGroup_minVisibility v35)) DM_NONE)) (
    chk 5650 (let! v36 := deref v26 in Ok (Distance_isReported (VisibilityGroup_minVisibility v36))) (
    chk 5651 (let! v37 := deref v26 in Ok (has_value (Distance_distance (VisibilityGroup_minVisibility v37)))) (
    chk 5652 (let! v38 := deref v26 in let! v39 := deref (Distance_distance (VisibilityGroup_minVisibility v38)) in Ok (near v39 (dlit (600) 1) (dlit (1) 200))) (
    chk 5653 (let! v40 := deref v26 in Ok (DistUnit_beq (distUnit (VisibilityGroup_minVisibility v40)) FEET)) (
    chk 5654 (let! v41 := deref v26 in Ok (DistModifier_beq (distModifier (VisibilityGroup_maxVisibility v41)) DM_MORE_THAN)) (
    chk 5655 (let! v42 := deref v26 in Ok (Distance_isReported (VisibilityGroup_maxVisibility v42))) (
    chk 5656 (let! v43 := deref v26 in Ok (has_value (Distance_distance (VisibilityGroup_maxVisibility v43)))) (
    chk 5657 (let! v44 := deref v26 in let! v45 := deref (Distance_distance (VisibilityGroup_maxVisibility v44)) in Ok (near v45 (dlit (1200) 1) (dlit (1) 200))) (
    chk 5658 (let! v46 := deref v26 in Ok (DistUnit_beq (distUnit (VisibilityGroup_maxVisibility v46)) FEET)) (
    chk 5659 (let! v47 := deref v26 in let! v48 := (VisibilityGroup_sectorDirections v47) in Ok (N.eqb (N.of_nat (List.length v48)) 0%N)) (
    chk 5660 (let! v49 := deref v26 in Ok (ViTrend_beq (vi_trend v49) Vt_NONE)) (
    chk 5661 (let! v50 := deref v26 in Ok (VisibilityGroup_isValid v50)) (
    step 5663 ((VisibilityGroup_parse "R14/M0600VP1200FT" RP_METAR md_default)) (fun v51 => 
    chk 5664 (Ok (has_value v51)) (
    chk 5665 (let! v52 := deref v51 in Ok (ViType_beq (vi_type v52) Vi_VARIABLE_RVR)) (
    chk 5666 (let! v53 := deref v51 in Ok (negb (Distance_isReported (VisibilityGroup_visibility v53)))) (
    chk 5667 (let! v54 := deref v51 in Ok (negb (has_value (vi_dir v54)))) (
    chk 5668 (let! v55 := deref v51 in Ok (has_value (vi_rw v55))) (
    chk 5669 (let! v56 := deref v51 in let! v57 := deref (vi_rw v56) in Ok (N.eqb (rNumber v57) 14%N)) (
    chk 5670 (let! v58 := deref v51 in let! v59 := deref (vi_rw v58) in Ok (RwDesignator_beq (rDesignator v59) Rw_NONE)) (
    chk 5671 (let! v60 := deref v51 in Ok (DistModifier_beq (distModifier (VisibilityGroup_minVisibility v60)) DM_LESS_THAN)) (
    chk 5672 (let! v61 := deref v51 in Ok (Distance_isReported (VisibilityGroup_minVisibility v61))) (
    chk 5673 (let! v62 := deref v51 in Ok (has_value (Distance_distance (VisibilityGroup_minVisibility v62)))) (
    chk 5674 (let! v63 := deref v51 in let! v64 := deref (Distance_distance (VisibilityGroup_minVisibility v63)) in Ok (near v64 (dlit (600) 1) (dlit (1) 200))) (
    chk 5675 (let! v65 := deref v51 in Ok (DistUnit_beq (distUnit (VisibilityGroup_minVisibility v65)) FEET)) (
    chk 5676 (let! v66 := deref v51 in Ok (DistModifier_beq (distModifier (VisibilityGroup_maxVisibility v66)) DM_MORE_THAN)) (
    chk 5677 (let! v67 := deref v51 in Ok (Distance_isReported (VisibilityGroup_maxVisibility v67))) (
    chk 5678 (let! v68 := deref v51 in Ok (has_value (Distance_distance (VisibilityGroup_maxVisibility v68)))) (
    chk 5679 (let! v69 := deref v51 in let! v70 := deref (Distance_distance (VisibilityGroup_maxVisibility v69)) in Ok (near v70 (dlit (1200) 1) (dlit (1) 200))) (
    chk 5680 (let! v71 := deref v51 in Ok (DistUnit_beq (distUnit (VisibilityGroup_maxVisibility v71)) FEET)) (
    chk 5681 (let! v72 := deref v51 in let! v73 := (VisibilityGroup_sectorDirections v72) in Ok (N.eqb (N.of_nat (List.length v73)) 0%N)) (
    chk 5682 (let! v74 := deref v51 in Ok (ViTrend_beq (vi_trend v74) Vt_NONE)) (
    chk 5683 (let! v75 := deref v51 in Ok (VisibilityGroup_isValid v75)) (
    None))))))))))))))))))))))))))))))))))))))))))))))))))))))))))))))).

Definition t_VisibilityGroup_parseVariableRvrWithTrends : option N :=
    step 5687 ((VisibilityGroup_parse "R17/0250V0450N" RP_METAR md_default)) (fun v1 => 
    chk 5688 (Ok (has_value v1)) (
    chk 5689 (let! v2 := deref v1 in Ok (ViType_beq (vi_type v2) Vi_VARIABLE_RVR)) (
    chk 5690 (let! v3 := deref v1 in Ok (negb (Distance_isReported (VisibilityGroup_visibility v3)))) (
    chk 5691 (let! v4 := deref v1 in Ok (negb (has_value (vi_dir v4)))) (
    chk 5692 (let! v5 := deref v1 in Ok (has_value (vi_rw v5))) (
    chk 5693 (let! v6 := deref v1 in let! v7 := deref (vi_rw v6) in Ok (N.eqb (rNumber v7) 17%N)) (
    chk 5694 (let! v8 := deref v1 in let! v9 := deref (vi_rw v8) in Ok (RwDesignator_beq (rDesignator v9) Rw_NONE)) (
    chk 5695 (let! v10 := deref v1 in Ok (DistModifier_beq (distModifier (VisibilityGroup_minVisibility v10)) DM_NONE)) (
    chk 5696 (let! v11 := deref v1 in Ok (Distance_isReported (VisibilityGroup_minVisibility v11))) (
    chk 5697 (let! v12 := deref v1 in Ok (has_value (Distance_distance (VisibilityGroup_minVisibility v12)))) (
    chk 5698 (let! v13 := deref v1 in let! v14 := deref (Distance_distance (VisibilityGroup_minVisibility v13)) in Ok (near v14 (dlit (250) 1) (dlit (1) 200))) (
    chk 5699 (let! v15 := deref v1 in Ok (DistUnit_beq (distUnit (VisibilityGroup_minVisibility v15)) METERS)) (
    chk 5700 (let! v16 := deref v1 in Ok (DistModifier_beq (distModifier (VisibilityGroup_maxVisibility v16)) DM_NONE)) (
    chk 5701 (let! v17 := deref v1 in Ok (Distance_isReported (VisibilityGroup_maxVisibility v17))) (
    chk 5702 (let! v18 := deref v1 in Ok (has_value (Distance_distance (VisibilityGroup_maxVisibility v18)))) (
    chk 5703 (let! v19 := deref v1 in let! v20 := deref (Distance_distance (VisibilityGroup_maxVisibility v19)) in Ok (near v20 (dlit (450) 1) (dlit (1) 200))) (
    chk 5704 (let! v21 := deref v1 in Ok (DistUnit_beq (distUnit (VisibilityGroup_maxVisibility v21)) METERS)) (
    chk 5705 (let! v22 := deref v1 in let! v23 := (VisibilityGroup_sectorDirections v22) in Ok (N.eqb (N.of_nat (List.length v23)) 0%N)) (
    chk 5706 (let! v24 := deref v1 in Ok (ViTrend_beq (vi_trend v24) Vt_NEUTRAL)) (
    chk 5707 (let! v25 := deref v1 in Ok (VisibilityGroup_isValid v25)) (
    step 5709 ((VisibilityGroup_parse "R17/M0250VP0450D" RP_METAR md_default)) (fun v26 => 
    chk 5710 (Ok (has_value v26)) (
    chk 5711 (let! v27 := deref v26 in Ok (ViType_beq (vi_type v27) Vi_VARIABLE_RVR)) (
    chk 5712 (let! v28 := deref v26 in Ok (negb (Distance_isReported (VisibilityGroup_visibility v28)))) (
    chk 5713 (let! v29 := deref v26 in Ok (negb (has_value (vi_dir v29)))) (
    chk 5714 (let! v30 := deref v26 in Ok (has_value (vi_rw v30))) (
    chk 5715 (let! v31 := deref v26 in let! v32 := deref (vi_rw v31) in Ok (N.eqb (rNumber v32) 17%N)) (
    chk 5716 (let! v33 := deref v26 in let! v34 := deref (vi_rw v33) in Ok (RwDesignator_beq (rDesignator v34) Rw_NONE)) (
    chk 5717 (let! v35 := deref v26 in Ok (DistModifier_beq (distModifier (VisibilityGroup_minVisibility v35)) DM_LESS_THAN)) (
    chk 5718 (let! v36 := deref v26 in Ok (Distance_isReported (VisibilityGroup_minVisibility v36))) (
    chk 5719 (let! v37 := deref v26 in Ok (has_value (Distance_distance (VisibilityGroup_minVisibility v37)))) (
    chk 5720 (let! v38 := deref v26 in let! v39 := deref (Distance_distance (VisibilityGroup_minVisibility v38)) in Ok (near v39 (dlit (250) 1) (dlit (1) 200))) (
    chk 5721 (let! v40 := deref v26 in Ok (DistUnit_beq (distUnit (VisibilityGroup_minVisibility v40)) METERS)) (
    chk 5722 (let! v41 := deref v26 in Ok (DistModifier_beq (distModifier (VisibilityGroup_maxVisibility v41)) DM_MORE_THAN)) (
    chk 5723 (let! v42 := deref v26 in Ok (Distance_isReported (VisibilityGroup_maxVisibility v42))) (
    chk 5724 (let! v43 := deref v26 in Ok (has_value (Distance_distance (VisibilityGroup_maxVisibility v43)))) (
    chk 5725 (let! v44 := deref v1 in let! v45 := deref (Distance_distance (VisibilityGroup_maxVisibility v44)) in Ok (near v45 (dlit (450) 1) (dlit (1) 200))) (
    chk 5726 (let! v46 := deref v26 in Ok (DistUnit_beq (distUnit (VisibilityGroup_maxVisibility v46)) METERS)) (
    chk 5727 (let! v47 := deref v26 in let! v48 := (VisibilityGroup_sectorDirections v47) in Ok (N.eqb (N.of_nat (List.length v48)) 0%N)) (
    chk 5728 (let! v49 := deref v26 in Ok (ViTrend_beq (vi_trend v49) Vt_DOWNWARD)) (
    chk 5729 (let! v50 := deref v26 in Ok (VisibilityGroup_isValid v50)) (
    step 5731 ((VisibilityGroup_parse "R26/2600V3200FT//" RP_METAR md_default)) (fun v51 => 
    chk 5732 (Ok (has_value v51)) (
    chk 5733 (let! v52 := deref v51 in Ok (ViType_beq (vi_type v52) Vi_VARIABLE_RVR)) (
    chk 5734 (let! v53 := deref v51 in Ok (negb (Distance_isReported (VisibilityGroup_visibility v53)))) (
    chk 5735 (let! v54 := deref v51 in Ok (negb (has_value (vi_dir v54)))) (
    chk 5736 (let! v55 := deref v51 in Ok (has_value (vi_rw v55))) (
    chk 5737 (let! v56 := deref v51 in let! v57 := deref (vi_rw v56) in Ok (N.eqb (rNumber v57) 26%N)) (
    chk 5738 (let! v58 := deref v51 in let! v59 := deref (vi_rw v58) in Ok (RwDesignator_beq (rDesignator v59) Rw_NONE)) (
    chk 5739 (let! v60 := deref v51 in Ok (DistModifier_beq (distModifier (VisibilityGroup_minVisibility v60)) DM_NONE)) (
    chk 5740 (let! v61 := deref v51 in Ok (Distance_isReported (VisibilityGroup_minVisibility v61))) (
    chk 5741 (let! v62 := deref v51 in Ok (has_value (Distance_distance (VisibilityGroup_minVisibility v62)))) (
    chk 5742 (let! v63 := deref v51 in let! v64 := deref (Distance_distance (VisibilityGroup_minVisibility v63)) in Ok (near v64 (dlit (2600) 1) (dlit (1) 200))) (
    chk 5743 (let! v65 := deref v51 in Ok (DistUnit_beq (distUnit (VisibilityGroup_minVisibility v65)) FEET)) (
    chk 5744 (let! v66 := deref v51 in Ok (DistModifier_beq (distModifier (VisibilityGroup_maxVisibility v66)) DM_NONE)) (
    chk 5745 (let! v67 := deref v51 in Ok (Distance_isReported (VisibilityGroup_maxVisibility v67))) (
    chk 5746 (let! v68 := deref v51 in Ok (has_value (Distance_distance (VisibilityGroup_maxVisibility v68)))) (
    chk 5747 (let! v69 := deref v51 in let! v70 := deref (Distance_distance (VisibilityGroup_maxVisibility v69)) in Ok (near v70 (dlit (3200) 1) (dlit (1) 200))) (
    chk 5748 (let! v71 := deref v51 in Ok (DistUnit_beq (distUnit (VisibilityGroup_maxVisibility v71)) FEET)) (
    chk 5749 (let! v72 := deref v51 in let! v73 := (VisibilityGroup_sectorDirections v72) in Ok (N.eqb (N.of_nat (List.length v73)) 0%N)) (
    chk 5750 (let! v74 := deref v51 in Ok (ViTrend_beq (vi_trend v74) Vt_NOT_REPORTED)) (
    chk 5751 (let! v75 := deref v51 in Ok (VisibilityGroup_isValid v75)) (
    step 5753 ((VisibilityGroup_parse "R30/5000VP6000FT/U" RP_METAR md_default)) (fun v76 => 
    chk 5754 (Ok (has_value v76)) (
    chk 5755 (let! v77 := deref v76 in Ok (ViType_beq (vi_type v77) Vi_VARIABLE_RVR)) (
    chk 5756 (let! v78 := deref v76 in Ok (negb (Distance_isReported (VisibilityGroup_visibility v78)))) (
    chk 5757 (let! v79 := deref v76 in Ok (negb (has_value (vi_dir v79)))) (
    chk 5758 (let! v80 := deref v76 in Ok (has_value (vi_rw v80))) (
    chk 5759 (let! v81 := deref v76 in let! v82 := deref (vi_rw v81) in Ok (N.eqb (rNumber v82) 30%N)) (
    chk 5760 (let! v83 := deref v76 in let! v84 := deref (vi_rw v83) in Ok (RwDesignator_beq (rDesignator v84) Rw_NONE)) (
    chk 5761 (let! v85 := deref v76 in Ok (DistModifier_beq (distModifier (VisibilityGroup_minVisibility v85)) DM_NONE)) (
    chk 5762 (let! v86 := deref v76 in Ok (Distance_isReported (VisibilityGroup_minVisibility v86))) (
    chk 5763 (let! v87 := deref v76 in Ok (has_value (Distance_distance (VisibilityGroup_minVisibility v87)))) (
    chk 5764 (let! v88 := deref v76 in let! v89 := deref (Distance_distance (VisibilityGroup_minVisibility v88)) in Ok (near v89 (dlit (5000) 1) (dlit (1) 200))) (
    chk 5765 (let! v90 := deref v76 in Ok (DistUnit_beq (distUnit (VisibilityGroup_minVisibility v90)) FEET)) (
    chk 5766 (let! v91 := deref v76 in Ok (DistModifier_beq (distModifier (VisibilityGroup_maxVisibility v91)) DM_MORE_THAN)) (
    chk 5767 (let! v92 := deref v76 in Ok (Distance_isReported (VisibilityGroup_maxVisibility v92))) (
    chk 5768 (let! v93 := deref v76 in Ok (has_value (Distance_distance (VisibilityGroup_maxVisibility v93)))) (
    chk 5769 (let! v94 := deref v76 in let! v95 := deref (Distance_distance (VisibilityGroup_maxVisibility v94)) in Ok (near v95 (dlit (6000) 1) (dlit (1) 200))) (
    chk 5770 (let! v96 := deref v76 in Ok (DistUnit_beq (distUnit (VisibilityGroup_maxVisibility v96)) FEET)) (
    chk 5771 (let! v97 := deref v76 in let! v98 := (VisibilityGroup_sectorDirections v97) in Ok (N.eqb (N.of_nat (List.length v98)) 0%N)) (
    chk 5772 (let! v99 := deref v76 in Ok (ViTrend_beq (vi_trend v99) Vt_UPWARD)) (
    chk 5773 (let! v100 := deref v76 in Ok (VisibilityGroup_isValid v100)) (
    None)))))))))))))))))))))))))))))))))))))))))))))))))))))))))))))))))))))))))))))))))))).

Definition t_VisibilityGroup_parseRvrRunwayWithDesignator : option N :=
    step 5785 ((VisibilityGroup_parse "R05L/1100" RP_METAR md_default)) (fun v1 => 
    chk 5786 (Ok (has_value v1)) (
    chk 5787 (let! v2 := deref v1 in Ok (ViType_beq (vi_type v2) Vi_RVR)) (
    chk 5788 (let! v3 := deref v1 in Ok (negb (has_value (vi_dir v3)))) (
    chk 5789 (let! v4 := deref v1 in Ok (has_value (vi_rw v4))) (
    chk 5790 (let! v5 := deref v1 in let! v6 := deref (vi_rw v5) in Ok (N.eqb (rNumber v6) 5%N)) (
    chk 5791 (let! v7 := deref v1 in let! v8 := deref (vi_rw v7) in Ok (RwDesignator_beq (rDesignator v8) Rw_LEFT)) (
    chk 5792 (let! v9 := deref v1 in Ok (DistModifier_beq (distModifier (VisibilityGroup_visibility v9)) DM_NONE)) (
    chk 5793 (let! v10 := deref v1 in Ok (Distance_isReported (VisibilityGroup_visibility v10))) (
    chk 5794 (let! v11 := deref v1 in Ok (has_value (Distance_distance (VisibilityGroup_visibility v11)))) (
    chk 5795 (let! v12 := deref v1 in let! v13 := deref (Distance_distance (VisibilityGroup_visibility v12)) in Ok (near v13 (dlit (1100) 1) (dlit (1) 200))) (
    chk 5796 (let! v14 := deref v1 in Ok (DistUnit_beq (distUnit (VisibilityGroup_visibility v14)) METERS)) (
    chk 5797 (let! v15 := deref v1 in Ok (negb (Distance_isReported (VisibilityGroup_minVisibility v15)))) (
    chk 5798 (let! v16 := deref v1 in Ok (negb (Distance_isReported (VisibilityGroup_maxVisibility v16)))) (
    chk 5799 (let! v17 := deref v1 in let! v18 := (VisibilityGroup_sectorDirections v17) in Ok (N.eqb (N.of_nat (List.length v18)) 0%N)) (
    chk 5800 (let! v19 := deref v1 in Ok (ViTrend_beq (vi_trend v19) Vt_NONE)) (
    chk 5801 (let! v20 := deref v1 in Ok (VisibilityGroup_isValid v20)) (
    step 5803 ((VisibilityGroup_parse "R05R/1100" RP_METAR md_default)) (fun v21 => 
    chk 5804 (Ok (has_value v21)) (
    chk 5805 (let! v22 := deref v21 in Ok (ViType_beq (vi_type v22) Vi_RVR)) (
    chk 5806 (let! v23 := deref v21 in Ok (negb (has_value (vi_dir v23)))) (
    chk 5807 (let! v24 := deref v21 in Ok (has_value (vi_rw v24))) (
    chk 5808 (let! v25 := deref v21 in let! v26 := deref (vi_rw v25) in Ok (N.eqb (rNumber v26) 5%N)) (
    chk 5809 (let! v27 := deref v21 in let! v28 := deref (vi_rw v27) in Ok (RwDesignator_beq (rDesignator v28) Rw_RIGHT)) (
    chk 5810 (let! v29 := deref v21 in Ok (DistModifier_beq (distModifier (VisibilityGroup_visibility v29)) DM_NONE)) (
    chk 5811 (let! v30 := deref v21 in Ok (Distance_isReported (VisibilityGroup_visibility v30))) (
    chk 5812 (let! v31 := deref v21 in Ok (has_value (Distance_distance (VisibilityGroup_visibility v31)))) (
    chk 5813 (let! v32 := deref v21 in let! v33 := deref (Distance_distance (VisibilityGroup_visibility v32)) in Ok (near v33 (dlit (1100) 1) (dlit (1) 200))) (
    chk 5814 (let! v34 := deref v21 in Ok (DistUnit_beq (distUnit (VisibilityGroup_visibility v34)) METERS)) (
    chk 5815 (let! v35 := deref v21 in Ok (negb (Distance_isReported (VisibilityGroup_minVisibility v35)))) (
    chk 5816 (let! v36 := deref v21 in Ok (negb (Distance_isReported (VisibilityGroup_maxVisibility v36)))) (
    chk 5817 (let! v37 := deref v21 in let! v38 := (VisibilityGroup_sectorDirections v37) in Ok (N.eqb (N.of_nat (List.length v38)) 0%N)) (
    chk 5818 (let! v39 := deref v21 in Ok (ViTrend_beq (vi_trend v39) Vt_NONE)) (
    chk 5819 (let! v40 := deref v21 in Ok (VisibilityGroup_isValid v40)) (
    step 5821 ((VisibilityGroup_parse "R05C/1100" RP_METAR md_default)) (fun v41 => 
    chk 5822 (Ok (has_value v41)) (
    chk 5823 (let! v42 := deref v41 in Ok (ViType_beq (vi_type v42) Vi_RVR)) (
    chk 5824 (let! v43 := deref v41 in Ok (negb (has_value (vi_dir v43)))) (
    chk 5825 (let! v44 := deref v41 in Ok (has_value (vi_rw v44))) (
    chk 5826 (let! v45 := deref v41 in let! v46 := deref (vi_rw v45) in Ok (N.eqb (rNumber v46) 5%N)) (
    chk 5827 (let! v47 := deref v41 in let! v48 := deref (vi_rw v47) in Ok (RwDesignator_beq (rDesignator v48) Rw_CENTER)) (
    chk 5828 (let! v49 := deref v41 in Ok (DistModifier_beq (distModifier (VisibilityGroup_visibility v49)) DM_NONE)) (
    chk 5829 (let! v50 := deref v41 in Ok (Distance_isReported (VisibilityGroup_visibility v50))) (
    chk 5830 (let! v51 := deref v41 in Ok (has_value (Distance_distance (VisibilityGroup_visibility v51)))) (
    chk 5831 (let! v52 := deref v41 in let! v53 := deref (Distance_distance (VisibilityGroup_visibility v52)) in Ok (near v53 (dlit (1100) 1) (dlit (1) 200))) (
    chk 5832 (let! v54 := deref v41 in Ok (DistUnit_beq (distUnit (VisibilityGroup_visibility v54)) METERS)) (
    chk 5833 (let! v55 := deref v41 in Ok (negb (Distance_isReported (VisibilityGroup_minVisibility v55)))) (
    chk 5834 (let! v56 := deref v41 in Ok (negb (Distance_isReported (VisibilityGroup_maxVisibility v56)))) (
    chk 5835 (let! v57 := deref v41 in let! v58 := (VisibilityGroup_sectorDirections v57) in Ok (N.eqb (N.of_nat (List.length v58)) 0%N)) (
    chk 5836 (let! v59 := deref v41 in Ok (ViTrend_beq (vi_trend v59) Vt_NONE)) (
    chk 5837 (let! v60 := deref v41 in Ok (VisibilityGroup_isValid v60)) (
    None))))))))))))))))))))))))))))))))))))))))))))))))))).

Definition t_VisibilityGroup_parseRvrGroupWrongReportPart : option N :=
    chk 5841 (let! v1 := (VisibilityGroup_parse "R05/1100" RP_UNKNOWN md_default) in Ok (negb (has_value v1))) (
    chk 5842 (let! v2 := (VisibilityGroup_parse "R05/1100" RP_HEADER md_default) in Ok (negb (has_value v2))) (
    chk 5843 (let! v3 := (VisibilityGroup_parse "R05/1100" RP_TAF md_default) in Ok (negb (has_value v3))) (
    chk 5844 (let! v4 := (VisibilityGroup_parse "R05/1100" RP_RMK md_default) in Ok (negb (has_value v4))) (
    None)))).

Definition t_VisibilityGroup_parseRvrGroupWrongFormat : option N :=
    chk 5848 (let! v1 := (VisibilityGroup_parse "R05/" RP_METAR md_default) in Ok (negb (has_value v1))) (
    chk 5849 (let! v2 := (VisibilityGroup_parse "R5/1100" RP_METAR md_default) in Ok (negb (has_value v2))) (
    chk 5850 (let! v3 := (VisibilityGroup_parse "R005/1100" RP_METAR md_default) in Ok (negb (has_value v3))) (
    chk 5851 (let! v4 := (VisibilityGroup_parse "R05X/1100" RP_METAR md_default) in Ok (negb (has_value v4))) (
    chk 5852 (let! v5 := (VisibilityGroup_parse "R05R1100" RP_METAR md_default) in Ok (negb (has_value v5))) (
    chk 5853 (let! v6 := (VisibilityGroup_parse "R05/110" RP_METAR md_default) in Ok (negb (has_value v6))) (
    chk 5854 (let! v7 := (VisibilityGroup_parse "R05/01100" RP_METAR md_default) in Ok (negb (has_value v7))) (
    chk 5855 (let! v8 := (VisibilityGroup_parse "R05/110A" RP_METAR md_default) in Ok (negb (has_value v8))) (
    chk 5856 (let! v9 := (VisibilityGroup_parse "R05/Z1100" RP_METAR md_default) in Ok (negb (has_value v9))) (
    chk 5857 (let! v10 := (VisibilityGroup_parse "R05/1100VZ2000" RP_METAR md_default) in Ok (negb (has_value v10))) (
    chk 5858 (let! v11 := (VisibilityGroup_parse "R05/1100Z2000" RP_METAR md_default) in Ok (negb (has_value v11))) (
    chk 5859 (let! v12 := (VisibilityGroup_parse "R05/1100V2000FF" RP_METAR md_default) in Ok (negb (has_value v12))) (
    chk 5860 (let! v13 := (VisibilityGroup_parse "R05/1100V2000A" RP_METAR md_default) in Ok (negb (has_value v13))) (
    chk 5861 (let! v14 := (VisibilityGroup_parse "R05/1100V2000/N" RP_METAR md_default) in Ok (negb (has_value v14))) (
    chk 5862 (let! v15 := (VisibilityGroup_parse "R05/1100V2000FT/A" RP_METAR md_default) in Ok (negb (has_value v15))) (
    chk 5863 (let! v16 := (VisibilityGroup_parse "R05/1100V////" RP_METAR md_default) in Ok (negb (has_value v16))) (
    chk 5864 (let! v17 := (VisibilityGroup_parse "R05/0400V800" RP_METAR md_default) in Ok (negb (has_value v17))) (
    chk 5865 (let! v18 := (VisibilityGroup_parse "R05/1100V02000" RP_METAR md_default) in Ok (negb (has_value v18))) (
    chk 5866 (let! v19 := (VisibilityGroup_parse "R06R////" RP_METAR md_default) in Ok (negb (has_value v19))) (
    chk 5867 (let! v20 := (VisibilityGroup_parse "R06R///////" RP_METAR md_default) in Ok (negb (has_value v20))) (
    chk 5868 (let! v21 := (VisibilityGroup_parse "R///3200" RP_METAR md_default) in Ok (negb (has_value v21))) (
    chk 5869 (let! v22 := (VisibilityGroup_parse "R///3200FT" RP_METAR md_default) in Ok (negb (has_value v22))) (
    chk 5870 (let! v23 := (VisibilityGroup_parse "R////////" RP_METAR md_default) in Ok (negb (has_value v23))) (
    chk 5871 (let! v24 := (VisibilityGroup_parse "R///////FT//" RP_METAR md_default) in Ok (negb (has_value v24))) (
    None)))))))))))))))))))))))).

Definition t_VisibilityGroup_appendToRvrGroup : option N :=
    step 5875 ((VisibilityGroup_parse "R05L/1100" RP_METAR md_default)) (fun v1 => 
    chk 5876 (Ok (has_value v1)) (
    step 5878 (let! v2 := deref v1 in VisibilityGroup_append v2 "R16/1200" RP_METAR md_default) (fun p => let v3 := Some (fst p) in let v4 := snd p in 
    chk 5878 (Ok (AppendResult_beq v4 NOT_APPENDED)) (
    step 5880 (let! v5 := deref v3 in VisibilityGroup_append v5 "R30/5000VP6000FT/U" RP_METAR md_default) (fun p => let v6 := Some (fst p) in let v7 := snd p in 
    chk 5880 (Ok (AppendResult_beq v7 NOT_APPENDED)) (
    step 5882 (let! v8 := deref v6 in VisibilityGroup_append v8 "9999" RP_METAR md_default) (fun p => let v9 := Some (fst p) in let v10 := snd p in 
    chk 5882 (Ok (AppendResult_beq v10 NOT_APPENDED)) (
    step 5884 (let! v11 := deref v9 in VisibilityGroup_append v11 "9999NDV" RP_METAR md_default) (fun p => let v12 := Some (fst p) in let v13 := snd p in 
    chk 5884 (Ok (AppendResult_beq v13 NOT_APPENDED)) (
    step 5886 (let! v14 := deref v12 in VisibilityGroup_append v14 "3000E" RP_METAR md_default) (fun p => let v15 := Some (fst p) in let v16 := snd p in 
    chk 5886 (Ok (AppendResult_beq v16 NOT_APPENDED)) (
    step 5888 (let! v17 := deref v15 in VisibilityGroup_append v17 "1" RP_METAR md_default) (fun p => let v18 := Some (fst p) in let v19 := snd p in 
    chk 5888 (Ok (AppendResult_beq v19 NOT_APPENDED)) (
    step 5890 (let! v20 := deref v18 in VisibilityGroup_append v20 "1/2SM" RP_METAR md_default) (fun p => let v21 := Some (fst p) in let v22 := snd p in 
    chk 5890 (Ok (AppendResult_beq v22 NOT_APPENDED)) (
    step 5892 (let! v23 := deref v21 in VisibilityGroup_append v23 "3SM" RP_METAR md_default) (fun p => let v24 := Some (fst p) in let v25 := snd p in 
    chk 5892 (Ok (AppendResult_beq v25 NOT_APPENDED)) (
    step 5894 (let! v26 := deref v24 in VisibilityGroup_append v26 "P6SM" RP_METAR md_default) (fun p => let v27 := Some (fst p) in let v28 := snd p in 
    chk 5894 (Ok (AppendResult_beq v28 NOT_APPENDED)) (
    step 5896 (let! v29 := deref v27 in VisibilityGroup_append v29 "////" RP_METAR md_default) (fun p => let v30 := Some (fst p) in let v31 := snd p in 
    chk 5896 (Ok (AppendResult_beq v31 NOT_APPENDED)) (
    step 5898 (let! v32 := deref v30 in VisibilityGroup_append v32 "TEST" RP_METAR md_default) (fun p => let v33 := Some (fst p) in let v34 := snd p in 
    chk 5898 (Ok (AppendResult_beq v34 NOT_APPENDED)) (
    step 5900 (let! v35 := deref v33 in VisibilityGroup_append v35 "RMK" RP_METAR md_default) (fun p => let v36 := Some (fst p) in let v37 := snd p in 
    chk 5900 (Ok (AppendResult_beq v37 NOT_APPENDED)) (
    step 5902 (let! v38 := deref v36 in VisibilityGroup_append v38 "R05" RP_METAR md_default) (fun p => let v39 := Some (fst p) in let v40 := snd p in 
    chk 5902 (Ok (AppendResult_beq v40 NOT_APPENDED)) (
    step 5904 (let! v41 := deref v39 in VisibilityGroup_append v41 "RWY05" RP_METAR md_default) (fun p => let v42 := Some (fst p) in let v43 := snd p in 
    chk 5904 (Ok (AppendResult_beq v43 NOT_APPENDED)) (
    chk 5907 (let! v44 := deref v42 in Ok (ViType_beq (vi_type v44) Vi_RVR)) (
    chk 5908 (let! v45 := deref v42 in Ok (negb (has_value (vi_dir v45)))) (
    chk 5909 (let! v46 := deref v42 in Ok (has_value (vi_rw v46))) (
    chk 5910 (let! v47 := deref v42 in let! v48 := deref (vi_rw v47) in Ok (N.eqb (rNumber v48) 5%N)) (
    chk 5911 (let! v49 := deref v42 in let! v50 := deref (vi_rw v49) in Ok (RwDesignator_beq (rDesignator v50) Rw_LEFT)) (
    chk 5912 (let! v51 := deref v42 in Ok (DistModifier_beq (distModifier (VisibilityGroup_visibility v51)) DM_NONE)) (
    chk 5913 (let! v52 := deref v42 in Ok (Distance_isReported (VisibilityGroup_visibility v52))) (
    chk 5914 (let! v53 := deref v42 in Ok (has_value (Distance_distance (VisibilityGroup_visibility v53)))) (
    chk 5915 (let! v54 := deref v42 in let! v55 := deref (Distance_distance (VisibilityGroup_visibility v54)) in Ok (near v55 (dlit (1100) 1) (dlit (1) 200))) (
    chk 5916 (let! v56 := deref v42 in Ok (DistUnit_beq (distUnit (VisibilityGroup_visibility v56)) METERS)) (
    chk 5917 (let! v57 := deref v42 in Ok (negb (Distance_isReported (VisibilityGroup_minVisibility v57)))) (
    chk 5918 (let! v58 := deref v42 in Ok (negb (Distance_isReported (VisibilityGroup_maxVisibility v58)))) (
    chk 5919 (let! v59 := deref v42 in let! v60 := (VisibilityGroup_sectorDirections v59) in Ok (N.eqb (N.of_nat (List.length v60)) 0%N)) (
    chk 5920 (let! v61 := deref v42 in Ok (ViTrend_beq (vi_trend v61) Vt_NONE)) (
    None)))))))))))))))))))))))))))))))))))))))))))).

Definition t_VisibilityGroup_appendToVariableRvrGroup : option N :=
    step 5924 ((VisibilityGroup_parse "R09/0500V0800" RP_METAR md_default)) (fun v1 => 
    chk 5925 (Ok (has_value v1)) (
    step 5927 (let! v2 := deref v1 in VisibilityGroup_append v2 "R16/1200" RP_METAR md_default) (fun p => let v3 := Some (fst p) in let v4 := snd p in 
    chk 5927 (Ok (AppendResult_beq v4 NOT_APPENDED)) (
    step 5929 (let! v5 := deref v3 in VisibilityGroup_append v5 "R30/5000VP6000FT/U" RP_METAR md_default) (fun p => let v6 := Some (fst p) in let v7 := snd p in 
    chk 5929 (Ok (AppendResult_beq v7 NOT_APPENDED)) (
    step 5931 (let! v8 := deref v6 in VisibilityGroup_append v8 "9999" RP_METAR md_default) (fun p => let v9 := Some (fst p) in let v10 := snd p in 
    chk 5931 (Ok (AppendResult_beq v10 NOT_APPENDED)) (
    step 5933 (let! v11 := deref v9 in VisibilityGroup_append v11 "9999NDV" RP_METAR md_default) (fun p => let v12 := Some (fst p) in let v13 := snd p in 
    chk 5933 (Ok (AppendResult_beq v13 NOT_APPENDED)) (
    step 5935 (let! v14 := deref v12 in VisibilityGroup_append v14 "3000E" RP_METAR md_default) (fun p => let v15 := Some (fst p) in let v16 := snd p in 
    chk 5935 (Ok (AppendResult_beq v16 NOT_APPENDED)) (
    step 5937 (let! v17 := deref v15 in VisibilityGroup_append v17 "1" RP_METAR md_default) (fun p => let v18 := Some (fst p) in let v19 := snd p in 
    chk 5937 (Ok (AppendResult_beq v19 NOT_APPENDED)) (
    step 5939 (let! v20 := deref v18 in VisibilityGroup_append v20 "1/2SM" RP_METAR md_default) (fun p => let v21 := Some (fst p) in let v22 := snd p in 
    chk 5939 (Ok (AppendResult_beq v22 NOT_APPENDED)) (
    step 5941 (let! v23 := deref v21 in VisibilityGroup_append v23 "3SM" RP_METAR md_default) (fun p => let v24 := Some (fst p) in let v25 := snd p in 
    chk 5941 (Ok (AppendResult_beq v25 NOT_APPENDED)) (
    step 5943 (let! v26 := deref v24 in VisibilityGroup_append v26 "P6SM" RP_METAR md_default) (fun p => let v27 := Some (fst p) in let v28 := snd p in 
    chk 5943 (Ok (AppendResult_beq v28 NOT_APPENDED)) (
    step 5945 (let! v29 := deref v27 in VisibilityGroup_append v29 "////" RP_METAR md_default) (fun p => let v30 := Some (fst p) in let v31 := snd p in 
    chk 5945 (Ok (AppendResult_beq v31 NOT_APPENDED)) (
    step 5947 (let! v32 := deref v30 in VisibilityGroup_append v32 "TEST" RP_METAR md_default) (fun p => let v33 := Some (fst p) in let v34 := snd p in 
    chk 5947 (Ok (AppendResult_beq v34 NOT_APPENDED)) (
    step 5949 (let! v35 := deref v33 in VisibilityGroup_append v35 "RMK" RP_METAR md_default) (fun p => let v36 := Some (fst p) in let v37 := snd p in 
    chk 5949 (Ok (AppendResult_beq v37 NOT_APPENDED)) (
    step 5951 (let! v38 := deref v36 in VisibilityGroup_append v38 "R05" RP_METAR md_default) (fun p => let v39 := Some (fst p) in let v40 := snd p in 
    chk 5951 (Ok (AppendResult_beq v40 NOT_APPENDED)) (
    step 5953 (let! v41 := deref v39 in VisibilityGroup_append v41 "RWY05" RP_METAR md_default) (fun p => let v42 := Some (fst p) in let v43 := snd p in 
    chk 5953 (Ok (AppendResult_beq v43 NOT_APPENDED)) (
    chk 5956 (let! v44 := deref v42 in Ok (ViType_beq (vi_type v44) Vi_VARIABLE_RVR)) (
    chk 5957 (let! v45 := deref v42 in Ok (negb (Distance_isReported (VisibilityGroup_visibility v45)))) (
    chk 5958 (let! v46 := deref v42 in Ok (negb (has_value (vi_dir v46)))) (
    chk 5959 (let! v47 := deref v42 in Ok (has_value (vi_rw v47))) (
    chk 5960 (let! v48 := deref v42 in let! v49 := deref (vi_rw v48) in Ok (N.eqb (rNumber v49) 9%N)) (
    chk 5961 (let! v50 := deref v42 in let! v51 := deref (vi_rw v50) in Ok (RwDesignator_beq (rDesignator v51) Rw_NONE)) (
    chk 5962 (let! v52 := deref v42 in Ok (DistModifier_beq (distModifier (VisibilityGroup_minVisibility v52)) DM_NONE)) (
    chk 5963 (let! v53 := deref v42 in Ok (Distance_isReported (VisibilityGroup_minVisibility v53))) (
    chk 5964 (let! v54 := deref v42 in Ok (has_value (Distance_distance (VisibilityGroup_minVisibility v54)))) (
    chk 5965 (let! v55 := deref v42 in let! v56 := deref (Distance_distance (VisibilityGroup_minVisibility v55)) in Ok (near v56 (dlit (500) 1) (dlit (1) 200))) (
    chk 5966 (let! v57 := deref v42 in Ok (DistUnit_beq (distUnit (VisibilityGroup_minVisibility v57)) METERS)) (
    chk 5967 (let! v58 := deref v42 in Ok (DistModifier_beq (distModifier (VisibilityGroup_maxVisibility v58)) DM_NONE)) (
    chk 5968 (let! v59 := deref v42 in Ok (Distance_isReported (VisibilityGroup_maxVisibility v59))) (
    chk 5969 (let! v60 := deref v42 in Ok (has_value (Distance_distance (VisibilityGroup_maxVisibility v60)))) (
    chk 5970 (let! v61 := deref v42 in let! v62 := deref (Distance_distance (VisibilityGroup_maxVisibility v61)) in Ok (near v62 (dlit (800) 1) (dlit (1) 200))) (
    chk 5971 (let! v63 := deref v42 in Ok (DistUnit_beq (distUnit (VisibilityGroup_maxVisibility v63)) METERS)) (
    chk 5972 (let! v64 := deref v42 in let! v65 := (VisibilityGroup_sectorDirections v64) in Ok (N.eqb (N.of_nat (List.length v65)) 0%N)) (
    chk 5973 (let! v66 := deref v42 in Ok (ViTrend_beq (vi_trend v66) Vt_NONE)) (
    None)))))))))))))))))))))))))))))))))))))))))))))))).

Definition t_VisibilityGroup_invalidRvrGroupWrongRunway : option N :=
    step 5977 ((VisibilityGroup_parse "R88R/1100" RP_METAR md_default)) (fun v1 => 
    chk 5978 (Ok (has_value v1)) (
    chk 5979 (let! v2 := deref v1 in Ok (has_value (vi_rw v2))) (
    chk 5980 (let! v3 := deref v1 in let! v4 := deref (vi_rw v3) in Ok (negb (Runway_isValid v4))) (
    chk 5981 (let! v5 := deref v1 in Ok (negb (VisibilityGroup_isValid v5))) (
    step 5983 ((VisibilityGroup_parse "R99C/1100" RP_METAR md_default)) (fun v6 => 
    chk 5984 (Ok (has_value v6)) (
    chk 5985 (let! v7 := deref v6 in Ok (has_value (vi_rw v7))) (
    chk 5986 (let! v8 := deref v6 in let! v9 := deref (vi_rw v8) in Ok (negb (Runway_isValid v9))) (
    chk 5987 (let! v10 := deref v6 in Ok (negb (VisibilityGroup_isValid v10))) (
    step 5989 ((VisibilityGroup_parse "R37/1100" RP_METAR md_default)) (fun v11 => 
    chk 5990 (Ok (has_value v11)) (
    chk 5991 (let! v12 := deref v11 in Ok (has_value (vi_rw v12))) (
    chk 5992 (let! v13 := deref v11 in let! v14 := deref (vi_rw v13) in Ok (negb (Runway_isValid v14))) (
    chk 5993 (let! v15 := deref v11 in Ok (negb (VisibilityGroup_isValid v15))) (
    None))))))))))))))).

Definition t_VisibilityGroup_invalidRvrGroupWrongVariableRangeMeters : option N :=
    step 5997 ((VisibilityGroup_parse "R09/0500V0400" RP_METAR md_default)) (fun v1 => 
    chk 5998 (Ok (has_value v1)) (
    chk 5999 (let! v2 := deref v1 in Ok (negb (VisibilityGroup_isValid v2))) (
    None))).

Definition t_VisibilityGroup_invalidRvrGroupWrongVariableRangeFeet : option N :=
    step 6003 ((VisibilityGroup_parse "R22/0800V0700FT" RP_METAR md_default)) (fun v1 => 
    chk 6004 (Ok (has_value v1)) (
    chk 6005 (let! v2 := deref v1 in Ok (negb (VisibilityGroup_isValid v2))) (
    None))).

Example tests_visibilitygroup_pass : failures
  [("VisibilityGroup_parseMetersMetar", t_VisibilityGroup_parseMetersMetar);
   ("VisibilityGroup_parseMetersTaf", t_VisibilityGroup_parseMetersTaf);
   ("VisibilityGroup_parseMetersNDV", t_VisibilityGroup_parseMetersNDV);
   ("VisibilityGroup_parseMetersDirectionNorth", t_VisibilityGroup_parseMetersDirectionNorth);
   ("VisibilityGroup_parseMetersDirectionSouth", t_VisibilityGroup_parseMetersDirectionSouth);
   ("VisibilityGroup_parseMetersDirectionWest", t_VisibilityGroup_parseMetersDirectionWest);
   ("VisibilityGroup_parseMetersDirectionEast", t_VisibilityGroup_parseMetersDirectionEast);
   ("VisibilityGroup_parseMetersDirectionNorthWest", t_VisibilityGroup_parseMetersDirectionNorthWest);
   ("VisibilityGroup_parseMetersDirectionNorthEast", t_VisibilityGroup_parseMetersDirectionNorthEast);
   ("VisibilityGroup_parseMetersDirectionSouthWest", t_VisibilityGroup_parseMetersDirectionSouthWest);
   ("VisibilityGroup_parseMetersDirectionSouthEast", t_VisibilityGroup_parseMetersDirectionSouthEast);
   ("VisibilityGroup_parseMetersNotReported", t_VisibilityGroup_parseMetersNotReported);
   ("VisibilityGroup_parseMetersNotReportedNdv", t_VisibilityGroup_parseMetersNotReportedNdv);
   ("VisibilityGroup_parseMetersWrongFormat", t_VisibilityGroup_parseMetersWrongFormat);
   ("VisibilityGroup_parseMetersWrongReportPart", t_VisibilityGroup_parseMetersWrongReportPart);
   ("VisibilityGroup_appendMetersAndFraction", t_VisibilityGroup_appendMetersAndFraction);
   ("VisibilityGroup_appendMetersAndRunway", t_VisibilityGroup_appendMetersAndRunway);
   ("VisibilityGroup_parseMilesInteger", t_VisibilityGroup_parseMilesInteger);
   ("VisibilityGroup_parseMilesIntegerTwoDigit", t_VisibilityGroup_parseMilesIntegerTwoDigit);
   ("VisibilityGroup_parseMilesIntegerWithModifier", t_VisibilityGroup_parseMilesIntegerWithModifier);
   ("VisibilityGroup_parseMilesFraction", t_VisibilityGroup_parseMilesFraction);
   ("VisibilityGroup_parseMilesFractionWithModifier", t_VisibilityGroup_parseMilesFractionWithModifier);
   ("VisibilityGroup_parseMilesIntegerNotReported", t_VisibilityGroup_parseMilesIntegerNotReported);
   ("VisibilityGroup_parseMilesWrongFormat", t_VisibilityGroup_parseMilesWrongFormat);
   ("VisibilityGroup_parseMilesIncomplete", t_VisibilityGroup_parseMilesIncomplete);
   ("VisibilityGroup_parseMilesIncompleteWrongFormat", t_VisibilityGroup_parseMilesIncompleteWrongFormat);
   ("VisibilityGroup_appendIncompleteAndFraction", t_VisibilityGroup_appendIncompleteAndFraction);
   ("VisibilityGroup_appendIncompleteAndOther", t_VisibilityGroup_appendIncompleteAndOther);
   ("VisibilityGroup_appendFractionAndIncomplete", t_VisibilityGroup_appendFractionAndIncomplete);
   ("VisibilityGroup_appendFractionAndRunway", t_VisibilityGroup_appendFractionAndRunway);
   ("VisibilityGroup_appendMilesIntegerAndFraction", t_VisibilityGroup_appendMilesIntegerAndFraction);
   ("VisibilityGroup_appendIntegerMilesWithModifierAndFraction", t_VisibilityGroup_appendIntegerMilesWithModifierAndFraction);
   ("VisibilityGroup_appendInvalidFraction", t_VisibilityGroup_appendInvalidFraction);
   ("VisibilityGroup_appendToCompleteIntegerFraction", t_VisibilityGroup_appendToCompleteIntegerFraction);
   ("VisibilityGroup_parseVisMisg", t_VisibilityGroup_parseVisMisg);
   ("VisibilityGroup_parseVisWrongReportPart", t_VisibilityGroup_parseVisWrongReportPart);
   ("VisibilityGroup_parseMisg", t_VisibilityGroup_parseMisg);
   ("VisibilityGroup_parseRvrMisg", t_VisibilityGroup_parseRvrMisg);
   ("VisibilityGroup_appendRvrAndOther", t_VisibilityGroup_appendRvrAndOther);
   ("VisibilityGroup_parseRvrWrongReportPart", t_VisibilityGroup_parseRvrWrongReportPart);
   ("VisibilityGroup_parseRvrno", t_VisibilityGroup_parseRvrno);
   ("VisibilityGroup_parseRvrnoWrongReportPart", t_VisibilityGroup_parseRvrnoWrongReportPart);
   ("VisibilityGroup_appendRvrno", t_VisibilityGroup_appendRvrno);
   ("VisibilityGroup_parseVisno", t_VisibilityGroup_parseVisno);
   ("VisibilityGroup_parseVisnoRunwayWithoutDesignator", t_VisibilityGroup_parseVisnoRunwayWithoutDesignator);
   ("VisibilityGroup_parseVisnoRunwayWithDesignator", t_VisibilityGroup_parseVisnoRunwayWithDesignator);
   ("VisibilityGroup_parseVisnoAllRunways", t_VisibilityGroup_parseVisnoAllRunways);
   ("VisibilityGroup_parseVisnoDirection", t_VisibilityGroup_parseVisnoDirection);
   ("VisibilityGroup_parseVisnoWrongReportPart", t_VisibilityGroup_parseVisnoWrongReportPart);
   ("VisibilityGroup_appendOtherToVisno", t_VisibilityGroup_appendOtherToVisno);
   ("VisibilityGroup_appendToVisnoDirection", t_VisibilityGroup_appendToVisnoDirection);
   ("VisibilityGroup_appendToVisnoRunway", t_VisibilityGroup_appendToVisnoRunway);
   ("VisibilityGroup_isValidVisnoInvalidRunway", t_VisibilityGroup_isValidVisnoInvalidRunway);
   ("VisibilityGroup_parseRmkVisIntegerVariableInteger", t_VisibilityGroup_parseRmkVisIntegerVariableInteger);
   ("VisibilityGroup_parseRmkVisFractionVariableInteger", t_VisibilityGroup_parseRmkVisFractionVariableInteger);
   ("VisibilityGroup_parseRmkVisFractionVariableFraction", t_VisibilityGroup_parseRmkVisFractionVariableFraction);
   ("VisibilityGroup_parseRmkVisIntegerFractionVariableInteger", t_VisibilityGroup_parseRmkVisIntegerFractionVariableInteger);
   ("VisibilityGroup_parseRmkVisIntegerTwoDigitVariableIntegerTwoDigit", t_VisibilityGroup_parseRmkVisIntegerTwoDigitVariableIntegerTwoDigit);
   ("VisibilityGroup_parseRmkVisIntegerTwoDigitFractionVariableIntegerTwoDigit", t_VisibilityGroup_parseRmkVisIntegerTwoDigitFractionVariableIntegerTwoDigit);
   ("VisibilityGroup_parseRmkVisFractionTwoDigitVariableInteger", t_VisibilityGroup_parseRmkVisFractionTwoDigitVariableInteger);
   ("VisibilityGroup_parseRmkVisFractionVariableFractionTwoDigit", t_VisibilityGroup_parseRmkVisFractionVariableFractionTwoDigit);
   ("VisibilityGroup_parseRmkVisFractionVariableIntegerFraction", t_VisibilityGroup_parseRmkVisFractionVariableIntegerFraction);
   ("VisibilityGroup_parseRmkVisIntegerFractionVariableIntegerFraction", t_VisibilityGroup_parseRmkVisIntegerFractionVariableIntegerFraction);
   ("VisibilityGroup_parseRmkAppendToCompleteVarVisGroups", t_VisibilityGroup_parseRmkAppendToCompleteVarVisGroups);
   ("VisibilityGroup_parseRmkVisModifierFractionVariableInteger", t_VisibilityGroup_parseRmkVisModifierFractionVariableInteger);
   ("VisibilityGroup_parseRmkVisFractionVariableModifierInteger", t_VisibilityGroup_parseRmkVisFractionVariableModifierInteger);
   ("VisibilityGroup_parseRmkVisModifierFractionVariableModifierInteger", t_VisibilityGroup_parseRmkVisModifierFractionVariableModifierInteger);
   ("VisibilityGroup_parseRmkVisModifierFractionVariableIntegerFraction", t_VisibilityGroup_parseRmkVisModifierFractionVariableIntegerFraction);
   ("VisibilityGroup_parseRmkVisModifierIntegerFractionVariableModifierIntegerFraction", t_VisibilityGroup_parseRmkVisModifierIntegerFractionVariableModifierIntegerFraction);
   ("VisibilityGroup_parseRmkVisVariableMeters", t_VisibilityGroup_parseRmkVisVariableMeters);
   ("VisibilityGroup_incompleteRmkVis", t_VisibilityGroup_incompleteRmkVis);
   ("VisibilityGroup_parseRmkVisIncorrectFraction", t_VisibilityGroup_parseRmkVisIncorrectFraction);
   ("VisibilityGroup_parseRmkAppendOtherToVis", t_VisibilityGroup_parseRmkAppendOtherToVis);
   ("VisibilityGroup_parseRmkAppendOtherToVisInteger", t_VisibilityGroup_parseRmkAppendOtherToVisInteger);
   ("VisibilityGroup_parseRmkVisIncorrectMeters", t_VisibilityGroup_parseRmkVisIncorrectMeters);
   ("VisibilityGroup_parseRmkVisVariableMetersIncorrectNotReported", t_VisibilityGroup_parseRmkVisVariableMetersIncorrectNotReported);
   ("VisibilityGroup_invalidVarVisGroupWrongVariableRangeMiles", t_VisibilityGroup_invalidVarVisGroupWrongVariableRangeMiles);
   ("VisibilityGroup_invalidVarVisGroupWrongVariableRangeMeters", t_VisibilityGroup_invalidVarVisGroupWrongVariableRangeMeters);
   ("VisibilityGroup_parseRmkVisIncorrectNotVariable", t_VisibilityGroup_parseRmkVisIncorrectNotVariable);
   ("VisibilityGroup_parseRmkVisIncorrectNonVariableMeters", t_VisibilityGroup_parseRmkVisIncorrectNonVariableMeters);
   ("VisibilityGroup_parseRmkVisDirectionalIntegerVariableInteger", t_VisibilityGroup_parseRmkVisDirectionalIntegerVariableInteger);
   ("VisibilityGroup_parseRmkVisDirectionalFractionVariableInteger", t_VisibilityGroup_parseRmkVisDirectionalFractionVariableInteger);
   ("VisibilityGroup_parseRmkVisDirectionalFractionVariableFraction", t_VisibilityGroup_parseRmkVisDirectionalFractionVariableFraction);
   ("VisibilityGroup_parseRmkVisDirectionalIntegerFractionVariableInteger", t_VisibilityGroup_parseRmkVisDirectionalIntegerFractionVariableInteger);
   ("VisibilityGroup_parseRmkVisDirectionalFractionVariableIntegerFraction", t_VisibilityGroup_parseRmkVisDirectionalFractionVariableIntegerFraction);
   ("VisibilityGroup_parseRmkVisDirectionalIntegerFractionVariableIntegerFraction", t_VisibilityGroup_parseRmkVisDirectionalIntegerFractionVariableIntegerFraction);
   ("VisibilityGroup_parseRmkVisDirectionalVariableMeters", t_VisibilityGroup_parseRmkVisDirectionalVariableMeters);
   ("VisibilityGroup_parseRmkVisDirectionalModifierFractionVariableInteger", t_VisibilityGroup_parseRmkVisDirectionalModifierFractionVariableInteger);
   ("VisibilityGroup_parseRmkVisDirectionalFractionVariableModifierInteger", t_VisibilityGroup_parseRmkVisDirectionalFractionVariableModifierInteger);
   ("VisibilityGroup_parseRmkVisDirectionalModifierFractionVariableModifierInteger", t_VisibilityGroup_parseRmkVisDirectionalModifierFractionVariableModifierInteger);
   ("VisibilityGroup_parseRmkVisDirectionalModifierFractionVariableIntegerFraction", t_VisibilityGroup_parseRmkVisDirectionalModifierFractionVariableIntegerFraction);
   ("VisibilityGroup_parseRmkVisDirectionalModifierIntegerFractionVariableModifierIntegerFraction", t_VisibilityGroup_parseRmkVisDirectionalModifierIntegerFractionVariableModifierIntegerFraction);
   ("VisibilityGroup_parseRmkVisDirectionalNonVariableIntegerFraction", t_VisibilityGroup_parseRmkVisDirectionalNonVariableIntegerFraction);
   ("VisibilityGroup_parseRmkVisDirectionalNonVariableInteger", t_VisibilityGroup_parseRmkVisDirectionalNonVariableInteger);
   ("VisibilityGroup_parseRmkVisDirectionalNonVariableFraction", t_VisibilityGroup_parseRmkVisDirectionalNonVariableFraction);
   ("VisibilityGroup_parseRmkAppendToCompleteNonVarVisGroups", t_VisibilityGroup_parseRmkAppendToCompleteNonVarVisGroups);
   ("VisibilityGroup_parseRmkVisDirectionalNonVariableModifierIntegerFraction", t_VisibilityGroup_parseRmkVisDirectionalNonVariableModifierIntegerFraction);
   ("VisibilityGroup_parseRmkVisDirectionalNonVariableModifierInteger", t_VisibilityGroup_parseRmkVisDirectionalNonVariableModifierInteger);
   ("VisibilityGroup_parseRmkVisDirectionalNonVariableModifierFraction", t_VisibilityGroup_parseRmkVisDirectionalNonVariableModifierFraction);
   ("VisibilityGroup_parseRmkVisSectorIntegerVariableInteger", t_VisibilityGroup_parseRmkVisSectorIntegerVariableInteger);
   ("VisibilityGroup_parseRmkVisSectorFractionVariableInteger", t_VisibilityGroup_parseRmkVisSectorFractionVariableInteger);
   ("VisibilityGroup_parseRmkVisSectorFractionVariableFraction", t_VisibilityGroup_parseRmkVisSectorFractionVariableFraction);
   ("VisibilityGroup_parseRmkVisSectorIntegerFractionVariableInteger", t_VisibilityGroup_parseRmkVisSectorIntegerFractionVariableInteger);
   ("VisibilityGroup_parseRmkVisSectorFractionVariableIntegerFraction", t_VisibilityGroup_parseRmkVisSectorFractionVariableIntegerFraction);
   ("VisibilityGroup_parseRmkVisSectorIntegerFractionVariableIntegerFraction", t_VisibilityGroup_parseRmkVisSectorIntegerFractionVariableIntegerFraction);
   ("VisibilityGroup_parseRmkVisSectorVariableMeters", t_VisibilityGroup_parseRmkVisSectorVariableMeters);
   ("VisibilityGroup_parseRmkVisSectorModifierFractionVariableInteger", t_VisibilityGroup_parseRmkVisSectorModifierFractionVariableInteger);
   ("VisibilityGroup_parseRmkVisSectorFractionVariableModifierInteger", t_VisibilityGroup_parseRmkVisSectorFractionVariableModifierInteger);
   ("VisibilityGroup_parseRmkVisSectorModifierFractionVariableModifierInteger", t_VisibilityGroup_parseRmkVisSectorModifierFractionVariableModifierInteger);
   ("VisibilityGroup_parseRmkVisSectorModifierFractionVariableIntegerFraction", t_VisibilityGroup_parseRmkVisSectorModifierFractionVariableIntegerFraction);
   ("VisibilityGroup_parseRmkVisSectorModifierIntegerFractionVariableModifierIntegerFraction", t_VisibilityGroup_parseRmkVisSectorModifierIntegerFractionVariableModifierIntegerFraction);
   ("VisibilityGroup_parseRmkVisSectorNonVariableIntegerFraction", t_VisibilityGroup_parseRmkVisSectorNonVariableIntegerFraction);
   ("VisibilityGroup_parseRmkVisSectorNonVariableInteger", t_VisibilityGroup_parseRmkVisSectorNonVariableInteger);
   ("VisibilityGroup_parseRmkVisSectorNonVariableFraction", t_VisibilityGroup_parseRmkVisSectorNonVariableFraction);
   ("VisibilityGroup_parseRmkSectorAppendToCompleteNonVarVisGroups", t_VisibilityGroup_parseRmkSectorAppendToCompleteNonVarVisGroups);
   ("VisibilityGroup_parseRmkVisSectorNonVariableModifierIntegerFraction", t_VisibilityGroup_parseRmkVisSectorNonVariableModifierIntegerFraction);
   ("VisibilityGroup_parseRmkVisSectorNonVariableModifierInteger", t_VisibilityGroup_parseRmkVisSectorNonVariableModifierInteger);
   ("VisibilityGroup_parseRmkVisSectorNonVariableModifierFraction", t_VisibilityGroup_parseRmkVisSectorNonVariableModifierFraction);
   ("VisibilityGroup_parseRmkVisDirectionalVariableAppendRunway", t_VisibilityGroup_parseRmkVisDirectionalVariableAppendRunway);
   ("VisibilityGroup_parseRmkVisDirectionalNonVariableAppendRunway", t_VisibilityGroup_parseRmkVisDirectionalNonVariableAppendRunway);
   ("VisibilityGroup_parseRmkAppendOtherToVisDirection", t_VisibilityGroup_parseRmkAppendOtherToVisDirection);
   ("VisibilityGroup_parseRmkAppendOtherToVisDirectionInteger", t_VisibilityGroup_parseRmkAppendOtherToVisDirectionInteger);
   ("VisibilityGroup_invalidDirVarVisGroupWrongVariableRangeMiles", t_VisibilityGroup_invalidDirVarVisGroupWrongVariableRangeMiles);
   ("VisibilityGroup_invalidDirVarVisGroupWrongVariableRangeMeters", t_VisibilityGroup_invalidDirVarVisGroupWrongVariableRangeMeters);
   ("VisibilityGroup_parseRmkVisDirectionalNonVariableMeters", t_VisibilityGroup_parseRmkVisDirectionalNonVariableMeters);
   ("VisibilityGroup_parseRmkVisRunwayIntegerVariableInteger", t_VisibilityGroup_parseRmkVisRunwayIntegerVariableInteger);
   ("VisibilityGroup_parseRmkVisRunwayFractionVariableInteger", t_VisibilityGroup_parseRmkVisRunwayFractionVariableInteger);
   ("VisibilityGroup_parseRmkVisRunwayFractionVariableFraction", t_VisibilityGroup_parseRmkVisRunwayFractionVariableFraction);
   ("VisibilityGroup_parseRmkVisRunwayIntegerFractionVariableInteger", t_VisibilityGroup_parseRmkVisRunwayIntegerFractionVariableInteger);
   ("VisibilityGroup_parseRmkVisRunwayFractionVariableIntegerFraction", t_VisibilityGroup_parseRmkVisRunwayFractionVariableIntegerFraction);
   ("VisibilityGroup_parseRmkVisRunwayIntegerFractionVariableIntegerFraction", t_VisibilityGroup_parseRmkVisRunwayIntegerFractionVariableIntegerFraction);
   ("VisibilityGroup_parseRmkVisRunwayVariableMeters", t_VisibilityGroup_parseRmkVisRunwayVariableMeters);
   ("VisibilityGroup_parseRmkVisRunwayModifierFractionVariableInteger", t_VisibilityGroup_parseRmkVisRunwayModifierFractionVariableInteger);
   ("VisibilityGroup_parseRmkVisRunwayFractionVariableModifierInteger", t_VisibilityGroup_parseRmkVisRunwayFractionVariableModifierInteger);
   ("VisibilityGroup_parseRmkVisRunwayModifierFractionVariableModifierInteger", t_VisibilityGroup_parseRmkVisRunwayModifierFractionVariableModifierInteger);
   ("VisibilityGroup_parseRmkVisRunwayModifierFractionVariableIntegerFraction", t_VisibilityGroup_parseRmkVisRunwayModifierFractionVariableIntegerFraction);
   ("VisibilityGroup_parseRmkVisRunwayModifierIntegerFractionVariableModifierIntegerFraction", t_VisibilityGroup_parseRmkVisRunwayModifierIntegerFractionVariableModifierIntegerFraction);
   ("VisibilityGroup_parseRmkVisRunwaylNonVariableIntegerFraction", t_VisibilityGroup_parseRmkVisRunwaylNonVariableIntegerFraction);
   ("VisibilityGroup_parseRmkVisRunwayNonVariableInteger", t_VisibilityGroup_parseRmkVisRunwayNonVariableInteger);
   ("VisibilityGroup_parseRmkVisRunwayNonVariableFraction", t_VisibilityGroup_parseRmkVisRunwayNonVariableFraction);
   ("VisibilityGroup_parseRmkVisRunwayVisAppendOther", t_VisibilityGroup_parseRmkVisRunwayVisAppendOther);
   ("VisibilityGroup_parseRmkVisRunwayNonVariableMeters", t_VisibilityGroup_parseRmkVisRunwayNonVariableMeters);
   ("VisibilityGroup_parseRmkVisRunwayNonVariableMeters9999", t_VisibilityGroup_parseRmkVisRunwayNonVariableMeters9999);
   ("VisibilityGroup_parseRmkVisRunwayNonVariableModifierIntegerFraction", t_VisibilityGroup_parseRmkVisRunwayNonVariableModifierIntegerFraction);
   ("VisibilityGroup_parseRmkVisRunwayNonVariableModifierInteger", t_VisibilityGroup_parseRmkVisRunwayNonVariableModifierInteger);
   ("VisibilityGroup_parseRmkVisRunwayNonVariableModifierFraction", t_VisibilityGroup_parseRmkVisRunwayNonVariableModifierFraction);
   ("VisibilityGroup_parseRmkVisRunwayRWithoutDesignator", t_VisibilityGroup_parseRmkVisRunwayRWithoutDesignator);
   ("VisibilityGroup_parseRmkVisRunwayRWithDesignator", t_VisibilityGroup_parseRmkVisRunwayRWithDesignator);
   ("VisibilityGroup_parseRmkVisRunwayRwyWithoutDesignator", t_VisibilityGroup_parseRmkVisRunwayRwyWithoutDesignator);
   ("VisibilityGroup_parseRmkVisRunwayRwyWithDesignator", t_VisibilityGroup_parseRmkVisRunwayRwyWithDesignator);
   ("VisibilityGroup_invalidRunwayVarVisGroupWrongVariableRangeMiles", t_VisibilityGroup_invalidRunwayVarVisGroupWrongVariableRangeMiles);
   ("VisibilityGroup_invalidRunwayVarVisGroupWrongVariableRangeMeters", t_VisibilityGroup_invalidRunwayVarVisGroupWrongVariableRangeMeters);
   ("VisibilityGroup_invalidRunwayVisibilityGroupWrongRunway", t_VisibilityGroup_invalidRunwayVisibilityGroupWrongRunway);
   ("VisibilityGroup_parseRmkSfcVisIntegerFraction", t_VisibilityGroup_parseRmkSfcVisIntegerFraction);
   ("VisibilityGroup_parseRmkSfcVisInteger", t_VisibilityGroup_parseRmkSfcVisInteger);
   ("VisibilityGroup_parseRmkSfcVisFraction", t_VisibilityGroup_parseRmkSfcVisFraction);
   ("VisibilityGroup_parseRmkSfcVisMeters", t_VisibilityGroup_parseRmkSfcVisMeters);
   ("VisibilityGroup_parseRmkSfcMeters9999", t_VisibilityGroup_parseRmkSfcMeters9999);
   ("VisibilityGroup_parseRmkAppendToCompleteSfcVis", t_VisibilityGroup_parseRmkAppendToCompleteSfcVis);
   ("VisibilityGroup_parseRmkSfcVisModifierIntegerFraction", t_VisibilityGroup_parseRmkSfcVisModifierIntegerFraction);
   ("VisibilityGroup_parseRmkSfcVisModifierInteger", t_VisibilityGroup_parseRmkSfcVisModifierInteger);
   ("VisibilityGroup_parseRmkSfcVisModifierFraction", t_VisibilityGroup_parseRmkSfcVisModifierFraction);
   ("VisibilityGroup_parseRmkSfcVisAppendRunway", t_VisibilityGroup_parseRmkSfcVisAppendRunway);
   ("VisibilityGroup_parseRmkSfcVisIncorrectDirectional", t_VisibilityGroup_parseRmkSfcVisIncorrectDirectional);
   ("VisibilityGroup_parseRmkAppendOtherToSfc", t_VisibilityGroup_parseRmkAppendOtherToSfc);
   ("VisibilityGroup_parseRmkAppendOtherToSfcVis", t_VisibilityGroup_parseRmkAppendOtherToSfcVis);
   ("VisibilityGroup_parseRmkAppendVariableToSfc", t_VisibilityGroup_parseRmkAppendVariableToSfc);
   ("VisibilityGroup_parseRmkTwrVisIntegerFraction", t_VisibilityGroup_parseRmkTwrVisIntegerFraction);
   ("VisibilityGroup_parseRmkTwrVisInteger", t_VisibilityGroup_parseRmkTwrVisInteger);
   ("VisibilityGroup_parseRmkTwrVisFraction", t_VisibilityGroup_parseRmkTwrVisFraction);
   ("VisibilityGroup_parseRmkTwrVisMeters", t_VisibilityGroup_parseRmkTwrVisMeters);
   ("VisibilityGroup_parseRmkTwrMeters9999", t_VisibilityGroup_parseRmkTwrMeters9999);
   ("VisibilityGroup_parseRmkTwrVisModifierIntegerFraction", t_VisibilityGroup_parseRmkTwrVisModifierIntegerFraction);
   ("VisibilityGroup_parseRmkTwrVisModifierInteger", t_VisibilityGroup_parseRmkTwrVisModifierInteger);
   ("VisibilityGroup_parseRmkTwrVisModifierFraction", t_VisibilityGroup_parseRmkTwrVisModifierFraction);
   ("VisibilityGroup_parseRmkTwrVisAppendRunway", t_VisibilityGroup_parseRmkTwrVisAppendRunway);
   ("VisibilityGroup_parseRmkTwrVisIncorrectDirectional", t_VisibilityGroup_parseRmkTwrVisIncorrectDirectional);
   ("VisibilityGroup_parseRmkAppendOtherToTwr", t_VisibilityGroup_parseRmkAppendOtherToTwr);
   ("VisibilityGroup_parseRmkAppendOtherToTwrVis", t_VisibilityGroup_parseRmkAppendOtherToTwrVis);
   ("VisibilityGroup_parseRmkAppendVariableToTwr", t_VisibilityGroup_parseRmkAppendVariableToTwr);
   ("VisibilityGroup_parseRmkAppendToCompleteTwrVis", t_VisibilityGroup_parseRmkAppendToCompleteTwrVis);
   ("VisibilityGroup_parseRvrMeters", t_VisibilityGroup_parseRvrMeters);
   ("VisibilityGroup_parseRvrMetersWithModifiers", t_VisibilityGroup_parseRvrMetersWithModifiers);
   ("VisibilityGroup_parseRvrFeet", t_VisibilityGroup_parseRvrFeet);
   ("VisibilityGroup_parseRvrFeetWithModifiers", t_VisibilityGroup_parseRvrFeetWithModifiers);
   ("VisibilityGroup_parseRvrWithTrends", t_VisibilityGroup_parseRvrWithTrends);
   ("VisibilityGroup_parseRvrNotReported", t_VisibilityGroup_parseRvrNotReported);
   ("VisibilityGroup_parseRvrNotReportedRunway", t_VisibilityGroup_parseRvrNotReportedRunway);
   ("VisibilityGroup_parseRvrNotReportedWithTrend", t_VisibilityGroup_parseRvrNotReportedWithTrend);
   ("VisibilityGroup_parseRvrNotReportedRunwayWithTrend", t_VisibilityGroup_parseRvrNotReportedRunwayWithTrend);
   ("VisibilityGroup_parseRvrNotReportedWithTrendNotReported", t_VisibilityGroup_parseRvrNotReportedWithTrendNotReported);
   ("VisibilityGroup_parseRvrFeetExtraTrendDelimiter", t_VisibilityGroup_parseRvrFeetExtraTrendDelimiter);
   ("VisibilityGroup_parseRvrFeetMissingTrendDelimiter", t_VisibilityGroup_parseRvrFeetMissingTrendDelimiter);
   ("VisibilityGroup_parseVariableRvrMeters", t_VisibilityGroup_parseVariableRvrMeters);
   ("VisibilityGroup_parseVariableRvrMetersWithModifiers", t_VisibilityGroup_parseVariableRvrMetersWithModifiers);
   ("VisibilityGroup_parseVariableRvrFeet", t_VisibilityGroup_parseVariableRvrFeet);
   ("VisibilityGroup_parseVariableRvrFeetWithModifiers", t_VisibilityGroup_parseVariableRvrFeetWithModifiers);
   ("VisibilityGroup_parseVariableRvrWithTrends", t_VisibilityGroup_parseVariableRvrWithTrends);
   ("VisibilityGroup_parseRvrRunwayWithDesignator", t_VisibilityGroup_parseRvrRunwayWithDesignator);
   ("VisibilityGroup_parseRvrGroupWrongReportPart", t_VisibilityGroup_parseRvrGroupWrongReportPart);
   ("VisibilityGroup_parseRvrGroupWrongFormat", t_VisibilityGroup_parseRvrGroupWrongFormat);
   ("VisibilityGroup_appendToRvrGroup", t_VisibilityGroup_appendToRvrGroup);
   ("VisibilityGroup_appendToVariableRvrGroup", t_VisibilityGroup_appendToVariableRvrGroup);
   ("VisibilityGroup_invalidRvrGroupWrongRunway", t_VisibilityGroup_invalidRvrGroupWrongRunway);
   ("VisibilityGroup_invalidRvrGroupWrongVariableRangeMeters", t_VisibilityGroup_invalidRvrGroupWrongVariableRangeMeters);
   ("VisibilityGroup_invalidRvrGroupWrongVariableRangeFeet", t_VisibilityGroup_invalidRvrGroupWrongVariableRangeFeet)] = [].
Proof. vm_compute. reflexivity. Qed.
