(** The handler indexes (src/execution/handlers.rs 45-294), the table from them to handler functions
    ([select_handler]) and the tables from them to instruction names (src/execution/stats.rs,
    src/execution/trace.rs, [get_instruction_name]).  Transcribed by tools/indexes.py; a handler is
    represented by the name of its function. *)
From Coq Require Import String ZArith List.
Import ListNotations.
Local Open Scope string_scope. Local Open Scope Z_scope.

Definition IX_UNREACHABLE : Z := 0x00. (* handlers.rs 45 *)
Definition IX_NOP : Z := 0x01. (* handlers.rs 46 *)
Definition IX_BLOCK : Z := 0x02. (* handlers.rs 47 *)
Definition IX_LOOP : Z := 0x03. (* handlers.rs 48 *)
Definition IX_IF : Z := 0x04. (* handlers.rs 49 *)
Definition IX_ELSE : Z := 0x05. (* handlers.rs 50 *)
Definition IX_END : Z := 0x0B. (* handlers.rs 51 *)
Definition IX_BR : Z := 0x0C. (* handlers.rs 52 *)
Definition IX_BR_IF : Z := 0x0D. (* handlers.rs 53 *)
Definition IX_BR_TABLE : Z := 0x0E. (* handlers.rs 54 *)
Definition IX_RETURN : Z := 0x0F. (* handlers.rs 55 *)
Definition IX_CALL : Z := 0x10. (* handlers.rs 56 *)
Definition IX_CALL_INDIRECT : Z := 0x11. (* handlers.rs 57 *)
Definition IX_LOCAL_GET : Z := 0x20. (* handlers.rs 60 *)
Definition IX_LOCAL_SET : Z := 0x21. (* handlers.rs 61 *)
Definition IX_LOCAL_TEE : Z := 0x22. (* handlers.rs 64 *)
Definition IX_I32_LOAD : Z := 0x28. (* handlers.rs 67 *)
Definition IX_I64_LOAD : Z := 0x29. (* handlers.rs 68 *)
Definition IX_F32_LOAD : Z := 0x2A. (* handlers.rs 69 *)
Definition IX_F64_LOAD : Z := 0x2B. (* handlers.rs 70 *)
Definition IX_I32_LOAD8_S : Z := 0x2C. (* handlers.rs 71 *)
Definition IX_I32_LOAD8_U : Z := 0x2D. (* handlers.rs 72 *)
Definition IX_I32_LOAD16_S : Z := 0x2E. (* handlers.rs 73 *)
Definition IX_I32_LOAD16_U : Z := 0x2F. (* handlers.rs 74 *)
Definition IX_I64_LOAD8_S : Z := 0x30. (* handlers.rs 75 *)
Definition IX_I64_LOAD8_U : Z := 0x31. (* handlers.rs 76 *)
Definition IX_I64_LOAD16_S : Z := 0x32. (* handlers.rs 77 *)
Definition IX_I64_LOAD16_U : Z := 0x33. (* handlers.rs 78 *)
Definition IX_I64_LOAD32_S : Z := 0x34. (* handlers.rs 79 *)
Definition IX_I64_LOAD32_U : Z := 0x35. (* handlers.rs 80 *)
Definition IX_I32_STORE : Z := 0x36. (* handlers.rs 81 *)
Definition IX_I64_STORE : Z := 0x37. (* handlers.rs 82 *)
Definition IX_F32_STORE : Z := 0x38. (* handlers.rs 83 *)
Definition IX_F64_STORE : Z := 0x39. (* handlers.rs 84 *)
Definition IX_I32_STORE8 : Z := 0x3A. (* handlers.rs 85 *)
Definition IX_I32_STORE16 : Z := 0x3B. (* handlers.rs 86 *)
Definition IX_I64_STORE8 : Z := 0x3C. (* handlers.rs 87 *)
Definition IX_I64_STORE16 : Z := 0x3D. (* handlers.rs 88 *)
Definition IX_I64_STORE32 : Z := 0x3E. (* handlers.rs 89 *)
Definition IX_MEMORY_SIZE : Z := 0x3F. (* handlers.rs 90 *)
Definition IX_MEMORY_GROW : Z := 0x40. (* handlers.rs 91 *)
Definition IX_I32_CONST : Z := 0x41. (* handlers.rs 94 *)
Definition IX_I64_CONST : Z := 0x42. (* handlers.rs 95 *)
Definition IX_F32_CONST : Z := 0x43. (* handlers.rs 96 *)
Definition IX_F64_CONST : Z := 0x44. (* handlers.rs 97 *)
Definition IX_I32_EQZ : Z := 0x45. (* handlers.rs 100 *)
Definition IX_I32_EQ : Z := 0x46. (* handlers.rs 101 *)
Definition IX_I32_NE : Z := 0x47. (* handlers.rs 102 *)
Definition IX_I32_LT_S : Z := 0x48. (* handlers.rs 103 *)
Definition IX_I32_LT_U : Z := 0x49. (* handlers.rs 104 *)
Definition IX_I32_GT_S : Z := 0x4A. (* handlers.rs 105 *)
Definition IX_I32_GT_U : Z := 0x4B. (* handlers.rs 106 *)
Definition IX_I32_LE_S : Z := 0x4C. (* handlers.rs 107 *)
Definition IX_I32_LE_U : Z := 0x4D. (* handlers.rs 108 *)
Definition IX_I32_GE_S : Z := 0x4E. (* handlers.rs 109 *)
Definition IX_I32_GE_U : Z := 0x4F. (* handlers.rs 110 *)
Definition IX_I64_EQZ : Z := 0x50. (* handlers.rs 113 *)
Definition IX_I64_EQ : Z := 0x51. (* handlers.rs 114 *)
Definition IX_I64_NE : Z := 0x52. (* handlers.rs 115 *)
Definition IX_I64_LT_S : Z := 0x53. (* handlers.rs 116 *)
Definition IX_I64_LT_U : Z := 0x54. (* handlers.rs 117 *)
Definition IX_I64_GT_S : Z := 0x55. (* handlers.rs 118 *)
Definition IX_I64_GT_U : Z := 0x56. (* handlers.rs 119 *)
Definition IX_I64_LE_S : Z := 0x57. (* handlers.rs 120 *)
Definition IX_I64_LE_U : Z := 0x58. (* handlers.rs 121 *)
Definition IX_I64_GE_S : Z := 0x59. (* handlers.rs 122 *)
Definition IX_I64_GE_U : Z := 0x5A. (* handlers.rs 123 *)
Definition IX_F32_EQ : Z := 0x5B. (* handlers.rs 126 *)
Definition IX_F32_NE : Z := 0x5C. (* handlers.rs 127 *)
Definition IX_F32_LT : Z := 0x5D. (* handlers.rs 128 *)
Definition IX_F32_GT : Z := 0x5E. (* handlers.rs 129 *)
Definition IX_F32_LE : Z := 0x5F. (* handlers.rs 130 *)
Definition IX_F32_GE : Z := 0x60. (* handlers.rs 131 *)
Definition IX_F64_EQ : Z := 0x61. (* handlers.rs 134 *)
Definition IX_F64_NE : Z := 0x62. (* handlers.rs 135 *)
Definition IX_F64_LT : Z := 0x63. (* handlers.rs 136 *)
Definition IX_F64_GT : Z := 0x64. (* handlers.rs 137 *)
Definition IX_F64_LE : Z := 0x65. (* handlers.rs 138 *)
Definition IX_F64_GE : Z := 0x66. (* handlers.rs 139 *)
Definition IX_I32_CLZ : Z := 0x67. (* handlers.rs 142 *)
Definition IX_I32_CTZ : Z := 0x68. (* handlers.rs 143 *)
Definition IX_I32_POPCNT : Z := 0x69. (* handlers.rs 144 *)
Definition IX_I32_ADD : Z := 0x6A. (* handlers.rs 145 *)
Definition IX_I32_SUB : Z := 0x6B. (* handlers.rs 146 *)
Definition IX_I32_MUL : Z := 0x6C. (* handlers.rs 147 *)
Definition IX_I32_DIV_S : Z := 0x6D. (* handlers.rs 148 *)
Definition IX_I32_DIV_U : Z := 0x6E. (* handlers.rs 149 *)
Definition IX_I32_REM_S : Z := 0x6F. (* handlers.rs 150 *)
Definition IX_I32_REM_U : Z := 0x70. (* handlers.rs 151 *)
Definition IX_I32_AND : Z := 0x71. (* handlers.rs 152 *)
Definition IX_I32_OR : Z := 0x72. (* handlers.rs 153 *)
Definition IX_I32_XOR : Z := 0x73. (* handlers.rs 154 *)
Definition IX_I32_SHL : Z := 0x74. (* handlers.rs 155 *)
Definition IX_I32_SHR_S : Z := 0x75. (* handlers.rs 156 *)
Definition IX_I32_SHR_U : Z := 0x76. (* handlers.rs 157 *)
Definition IX_I32_ROTL : Z := 0x77. (* handlers.rs 158 *)
Definition IX_I32_ROTR : Z := 0x78. (* handlers.rs 159 *)
Definition IX_I64_CLZ : Z := 0x79. (* handlers.rs 162 *)
Definition IX_I64_CTZ : Z := 0x7A. (* handlers.rs 163 *)
Definition IX_I64_POPCNT : Z := 0x7B. (* handlers.rs 164 *)
Definition IX_I64_ADD : Z := 0x7C. (* handlers.rs 165 *)
Definition IX_I64_SUB : Z := 0x7D. (* handlers.rs 166 *)
Definition IX_I64_MUL : Z := 0x7E. (* handlers.rs 167 *)
Definition IX_I64_DIV_S : Z := 0x7F. (* handlers.rs 168 *)
Definition IX_I64_DIV_U : Z := 0x80. (* handlers.rs 169 *)
Definition IX_I64_REM_S : Z := 0x81. (* handlers.rs 170 *)
Definition IX_I64_REM_U : Z := 0x82. (* handlers.rs 171 *)
Definition IX_I64_AND : Z := 0x83. (* handlers.rs 172 *)
Definition IX_I64_OR : Z := 0x84. (* handlers.rs 173 *)
Definition IX_I64_XOR : Z := 0x85. (* handlers.rs 174 *)
Definition IX_I64_SHL : Z := 0x86. (* handlers.rs 175 *)
Definition IX_I64_SHR_S : Z := 0x87. (* handlers.rs 176 *)
Definition IX_I64_SHR_U : Z := 0x88. (* handlers.rs 177 *)
Definition IX_I64_ROTL : Z := 0x89. (* handlers.rs 178 *)
Definition IX_I64_ROTR : Z := 0x8A. (* handlers.rs 179 *)
Definition IX_F32_ABS : Z := 0x8B. (* handlers.rs 182 *)
Definition IX_F32_NEG : Z := 0x8C. (* handlers.rs 183 *)
Definition IX_F32_CEIL : Z := 0x8D. (* handlers.rs 184 *)
Definition IX_F32_FLOOR : Z := 0x8E. (* handlers.rs 185 *)
Definition IX_F32_TRUNC : Z := 0x8F. (* handlers.rs 186 *)
Definition IX_F32_NEAREST : Z := 0x90. (* handlers.rs 187 *)
Definition IX_F32_SQRT : Z := 0x91. (* handlers.rs 188 *)
Definition IX_F32_ADD : Z := 0x92. (* handlers.rs 189 *)
Definition IX_F32_SUB : Z := 0x93. (* handlers.rs 190 *)
Definition IX_F32_MUL : Z := 0x94. (* handlers.rs 191 *)
Definition IX_F32_DIV : Z := 0x95. (* handlers.rs 192 *)
Definition IX_F32_MIN : Z := 0x96. (* handlers.rs 193 *)
Definition IX_F32_MAX : Z := 0x97. (* handlers.rs 194 *)
Definition IX_F32_COPYSIGN : Z := 0x98. (* handlers.rs 195 *)
Definition IX_F64_ABS : Z := 0x99. (* handlers.rs 198 *)
Definition IX_F64_NEG : Z := 0x9A. (* handlers.rs 199 *)
Definition IX_F64_CEIL : Z := 0x9B. (* handlers.rs 200 *)
Definition IX_F64_FLOOR : Z := 0x9C. (* handlers.rs 201 *)
Definition IX_F64_TRUNC : Z := 0x9D. (* handlers.rs 202 *)
Definition IX_F64_NEAREST : Z := 0x9E. (* handlers.rs 203 *)
Definition IX_F64_SQRT : Z := 0x9F. (* handlers.rs 204 *)
Definition IX_F64_ADD : Z := 0xA0. (* handlers.rs 205 *)
Definition IX_F64_SUB : Z := 0xA1. (* handlers.rs 206 *)
Definition IX_F64_MUL : Z := 0xA2. (* handlers.rs 207 *)
Definition IX_F64_DIV : Z := 0xA3. (* handlers.rs 208 *)
Definition IX_F64_MIN : Z := 0xA4. (* handlers.rs 209 *)
Definition IX_F64_MAX : Z := 0xA5. (* handlers.rs 210 *)
Definition IX_F64_COPYSIGN : Z := 0xA6. (* handlers.rs 211 *)
Definition IX_I32_WRAP_I64 : Z := 0xA7. (* handlers.rs 214 *)
Definition IX_I32_TRUNC_F32_S : Z := 0xA8. (* handlers.rs 215 *)
Definition IX_I32_TRUNC_F32_U : Z := 0xA9. (* handlers.rs 216 *)
Definition IX_I32_TRUNC_F64_S : Z := 0xAA. (* handlers.rs 217 *)
Definition IX_I32_TRUNC_F64_U : Z := 0xAB. (* handlers.rs 218 *)
Definition IX_I64_EXTEND_I32_S : Z := 0xAC. (* handlers.rs 219 *)
Definition IX_I64_EXTEND_I32_U : Z := 0xAD. (* handlers.rs 220 *)
Definition IX_I64_TRUNC_F32_S : Z := 0xAE. (* handlers.rs 221 *)
Definition IX_I64_TRUNC_F32_U : Z := 0xAF. (* handlers.rs 222 *)
Definition IX_I64_TRUNC_F64_S : Z := 0xB0. (* handlers.rs 223 *)
Definition IX_I64_TRUNC_F64_U : Z := 0xB1. (* handlers.rs 224 *)
Definition IX_F32_CONVERT_I32_S : Z := 0xB2. (* handlers.rs 225 *)
Definition IX_F32_CONVERT_I32_U : Z := 0xB3. (* handlers.rs 226 *)
Definition IX_F32_CONVERT_I64_S : Z := 0xB4. (* handlers.rs 227 *)
Definition IX_F32_CONVERT_I64_U : Z := 0xB5. (* handlers.rs 228 *)
Definition IX_F32_DEMOTE_F64 : Z := 0xB6. (* handlers.rs 229 *)
Definition IX_F64_CONVERT_I32_S : Z := 0xB7. (* handlers.rs 230 *)
Definition IX_F64_CONVERT_I32_U : Z := 0xB8. (* handlers.rs 231 *)
Definition IX_F64_CONVERT_I64_S : Z := 0xB9. (* handlers.rs 232 *)
Definition IX_F64_CONVERT_I64_U : Z := 0xBA. (* handlers.rs 233 *)
Definition IX_F64_PROMOTE_F32 : Z := 0xBB. (* handlers.rs 234 *)
Definition IX_I32_REINTERPRET_F32 : Z := 0xBC. (* handlers.rs 235 *)
Definition IX_I64_REINTERPRET_F64 : Z := 0xBD. (* handlers.rs 236 *)
Definition IX_F32_REINTERPRET_I32 : Z := 0xBE. (* handlers.rs 237 *)
Definition IX_F64_REINTERPRET_I64 : Z := 0xBF. (* handlers.rs 238 *)
Definition IX_I32_EXTEND8_S : Z := 0xC0. (* handlers.rs 241 *)
Definition IX_I32_EXTEND16_S : Z := 0xC1. (* handlers.rs 242 *)
Definition IX_I64_EXTEND8_S : Z := 0xC2. (* handlers.rs 243 *)
Definition IX_I64_EXTEND16_S : Z := 0xC3. (* handlers.rs 244 *)
Definition IX_I64_EXTEND32_S : Z := 0xC4. (* handlers.rs 245 *)
Definition IX_MEMORY_COPY : Z := 0xC5. (* handlers.rs 248 *)
Definition IX_MEMORY_INIT : Z := 0xC6. (* handlers.rs 249 *)
Definition IX_MEMORY_FILL : Z := 0xC7. (* handlers.rs 250 *)
Definition IX_I32_TRUNC_SAT_F32_S : Z := 0xC8. (* handlers.rs 253 *)
Definition IX_I32_TRUNC_SAT_F32_U : Z := 0xC9. (* handlers.rs 254 *)
Definition IX_I32_TRUNC_SAT_F64_S : Z := 0xCA. (* handlers.rs 255 *)
Definition IX_I32_TRUNC_SAT_F64_U : Z := 0xCB. (* handlers.rs 256 *)
Definition IX_I64_TRUNC_SAT_F32_S : Z := 0xCC. (* handlers.rs 257 *)
Definition IX_I64_TRUNC_SAT_F32_U : Z := 0xCD. (* handlers.rs 258 *)
Definition IX_I64_TRUNC_SAT_F64_S : Z := 0xCE. (* handlers.rs 259 *)
Definition IX_I64_TRUNC_SAT_F64_U : Z := 0xCF. (* handlers.rs 260 *)
Definition IX_DATA_DROP : Z := 0xE8. (* handlers.rs 262 *)
Definition IX_SELECT_I32 : Z := 0xF0. (* handlers.rs 265 *)
Definition IX_SELECT_I64 : Z := 0xF1. (* handlers.rs 266 *)
Definition IX_SELECT_F32 : Z := 0xF2. (* handlers.rs 267 *)
Definition IX_SELECT_F64 : Z := 0xF3. (* handlers.rs 268 *)
Definition IX_GLOBAL_GET_I32 : Z := 0xF4. (* handlers.rs 271 *)
Definition IX_GLOBAL_GET_I64 : Z := 0xF5. (* handlers.rs 272 *)
Definition IX_GLOBAL_GET_F32 : Z := 0xF6. (* handlers.rs 273 *)
Definition IX_GLOBAL_GET_F64 : Z := 0xF7. (* handlers.rs 274 *)
Definition IX_GLOBAL_SET_I32 : Z := 0xF8. (* handlers.rs 277 *)
Definition IX_GLOBAL_SET_I64 : Z := 0xF9. (* handlers.rs 278 *)
Definition IX_GLOBAL_SET_F32 : Z := 0xFA. (* handlers.rs 279 *)
Definition IX_GLOBAL_SET_F64 : Z := 0xFB. (* handlers.rs 280 *)
Definition IX_REF_NULL : Z := 0xFC. (* handlers.rs 283 *)
Definition IX_REF_IS_NULL : Z := 0xFD. (* handlers.rs 284 *)
Definition IX_TABLE_GET : Z := 0xFE. (* handlers.rs 285 *)
Definition IX_TABLE_SET : Z := 0xFF. (* handlers.rs 286 *)
Definition IX_TABLE_FILL : Z := 0x100. (* handlers.rs 287 *)
Definition IX_REF_LOCAL_GET : Z := 0x101. (* handlers.rs 290 *)
Definition IX_REF_LOCAL_SET : Z := 0x102. (* handlers.rs 291 *)
Definition IX_CALL_WASI : Z := 0x103. (* handlers.rs 294 *)

(** a [match] over constants, first arm first *)
Fixpoint arm {A} (d : A) (x : Z) (l : list (list Z * A)) : A :=
  match l with [] => d | (ks, a) :: l => if existsb (Z.eqb x) ks then a else arm d x l end.

(** handlers.rs 2094-2345: the arms of [select_handler] with an index, one table for each variant of [ProcessedInstr] *)
Inductive family := I32Reg | I64Reg | F32Reg | F64Reg | ConversionReg | MemoryLoadReg | MemoryStoreReg | MemoryOpsReg | SelectReg | GlobalGetReg | GlobalSetReg | RefLocalReg | TableRefReg.
Definition select_handler (f : family) (x : Z) : string :=
  match f with
  | I32Reg => arm "invalid" x (* 2096 *)
    [([IX_LOCAL_GET], "i32_local_get");
     ([IX_LOCAL_SET; IX_LOCAL_TEE], "i32_local_set");
     ([IX_I32_CONST], "i32_const");
     ([IX_I32_ADD], "i32_add");
     ([IX_I32_SUB], "i32_sub");
     ([IX_I32_MUL], "i32_mul");
     ([IX_I32_DIV_S], "i32_div_s");
     ([IX_I32_DIV_U], "i32_div_u");
     ([IX_I32_REM_S], "i32_rem_s");
     ([IX_I32_REM_U], "i32_rem_u");
     ([IX_I32_AND], "i32_and");
     ([IX_I32_OR], "i32_or");
     ([IX_I32_XOR], "i32_xor");
     ([IX_I32_SHL], "i32_shl");
     ([IX_I32_SHR_S], "i32_shr_s");
     ([IX_I32_SHR_U], "i32_shr_u");
     ([IX_I32_ROTL], "i32_rotl");
     ([IX_I32_ROTR], "i32_rotr");
     ([IX_I32_EQ], "i32_eq");
     ([IX_I32_NE], "i32_ne");
     ([IX_I32_LT_S], "i32_lt_s");
     ([IX_I32_LT_U], "i32_lt_u");
     ([IX_I32_LE_S], "i32_le_s");
     ([IX_I32_LE_U], "i32_le_u");
     ([IX_I32_GT_S], "i32_gt_s");
     ([IX_I32_GT_U], "i32_gt_u");
     ([IX_I32_GE_S], "i32_ge_s");
     ([IX_I32_GE_U], "i32_ge_u");
     ([IX_I32_CLZ], "i32_clz");
     ([IX_I32_CTZ], "i32_ctz");
     ([IX_I32_POPCNT], "i32_popcnt");
     ([IX_I32_EQZ], "i32_eqz");
     ([IX_I32_EXTEND8_S], "i32_extend8_s");
     ([IX_I32_EXTEND16_S], "i32_extend16_s")]
  | I64Reg => arm "invalid" x (* 2133 *)
    [([IX_LOCAL_GET], "i64_local_get");
     ([IX_LOCAL_SET; IX_LOCAL_TEE], "i64_local_set");
     ([IX_I64_CONST], "i64_const");
     ([IX_I64_ADD], "i64_add");
     ([IX_I64_SUB], "i64_sub");
     ([IX_I64_MUL], "i64_mul");
     ([IX_I64_DIV_S], "i64_div_s");
     ([IX_I64_DIV_U], "i64_div_u");
     ([IX_I64_REM_S], "i64_rem_s");
     ([IX_I64_REM_U], "i64_rem_u");
     ([IX_I64_AND], "i64_and");
     ([IX_I64_OR], "i64_or");
     ([IX_I64_XOR], "i64_xor");
     ([IX_I64_SHL], "i64_shl");
     ([IX_I64_SHR_S], "i64_shr_s");
     ([IX_I64_SHR_U], "i64_shr_u");
     ([IX_I64_ROTL], "i64_rotl");
     ([IX_I64_ROTR], "i64_rotr");
     ([IX_I64_EQ], "i64_eq");
     ([IX_I64_NE], "i64_ne");
     ([IX_I64_LT_S], "i64_lt_s");
     ([IX_I64_LT_U], "i64_lt_u");
     ([IX_I64_LE_S], "i64_le_s");
     ([IX_I64_LE_U], "i64_le_u");
     ([IX_I64_GT_S], "i64_gt_s");
     ([IX_I64_GT_U], "i64_gt_u");
     ([IX_I64_GE_S], "i64_ge_s");
     ([IX_I64_GE_U], "i64_ge_u");
     ([IX_I64_CLZ], "i64_clz");
     ([IX_I64_CTZ], "i64_ctz");
     ([IX_I64_POPCNT], "i64_popcnt");
     ([IX_I64_EQZ], "i64_eqz");
     ([IX_I64_EXTEND8_S], "i64_extend8_s");
     ([IX_I64_EXTEND16_S], "i64_extend16_s");
     ([IX_I64_EXTEND32_S], "i64_extend32_s")]
  | F32Reg => arm "invalid" x (* 2171 *)
    [([IX_LOCAL_GET], "f32_local_get");
     ([IX_LOCAL_SET; IX_LOCAL_TEE], "f32_local_set");
     ([IX_F32_CONST], "f32_const");
     ([IX_F32_ADD], "f32_add");
     ([IX_F32_SUB], "f32_sub");
     ([IX_F32_MUL], "f32_mul");
     ([IX_F32_DIV], "f32_div");
     ([IX_F32_MIN], "f32_min");
     ([IX_F32_MAX], "f32_max");
     ([IX_F32_COPYSIGN], "f32_copysign");
     ([IX_F32_ABS], "f32_abs");
     ([IX_F32_NEG], "f32_neg");
     ([IX_F32_CEIL], "f32_ceil");
     ([IX_F32_FLOOR], "f32_floor");
     ([IX_F32_TRUNC], "f32_trunc");
     ([IX_F32_NEAREST], "f32_nearest");
     ([IX_F32_SQRT], "f32_sqrt");
     ([IX_F32_EQ], "f32_eq");
     ([IX_F32_NE], "f32_ne");
     ([IX_F32_LT], "f32_lt");
     ([IX_F32_GT], "f32_gt");
     ([IX_F32_LE], "f32_le");
     ([IX_F32_GE], "f32_ge")]
  | F64Reg => arm "invalid" x (* 2197 *)
    [([IX_LOCAL_GET], "f64_local_get");
     ([IX_LOCAL_SET; IX_LOCAL_TEE], "f64_local_set");
     ([IX_F64_CONST], "f64_const");
     ([IX_F64_ADD], "f64_add");
     ([IX_F64_SUB], "f64_sub");
     ([IX_F64_MUL], "f64_mul");
     ([IX_F64_DIV], "f64_div");
     ([IX_F64_MIN], "f64_min");
     ([IX_F64_MAX], "f64_max");
     ([IX_F64_COPYSIGN], "f64_copysign");
     ([IX_F64_ABS], "f64_abs");
     ([IX_F64_NEG], "f64_neg");
     ([IX_F64_CEIL], "f64_ceil");
     ([IX_F64_FLOOR], "f64_floor");
     ([IX_F64_TRUNC], "f64_trunc");
     ([IX_F64_NEAREST], "f64_nearest");
     ([IX_F64_SQRT], "f64_sqrt");
     ([IX_F64_EQ], "f64_eq");
     ([IX_F64_NE], "f64_ne");
     ([IX_F64_LT], "f64_lt");
     ([IX_F64_GT], "f64_gt");
     ([IX_F64_LE], "f64_le");
     ([IX_F64_GE], "f64_ge")]
  | ConversionReg => arm "invalid" x (* 2223 *)
    [([IX_I64_EXTEND_I32_S], "conv_i64_extend_i32_s");
     ([IX_I64_EXTEND_I32_U], "conv_i64_extend_i32_u");
     ([IX_I32_WRAP_I64], "conv_i32_wrap_i64");
     ([IX_I32_TRUNC_F32_S], "conv_i32_trunc_f32_s");
     ([IX_I32_TRUNC_F32_U], "conv_i32_trunc_f32_u");
     ([IX_I32_TRUNC_F64_S], "conv_i32_trunc_f64_s");
     ([IX_I32_TRUNC_F64_U], "conv_i32_trunc_f64_u");
     ([IX_I64_TRUNC_F32_S], "conv_i64_trunc_f32_s");
     ([IX_I64_TRUNC_F32_U], "conv_i64_trunc_f32_u");
     ([IX_I64_TRUNC_F64_S], "conv_i64_trunc_f64_s");
     ([IX_I64_TRUNC_F64_U], "conv_i64_trunc_f64_u");
     ([IX_I32_TRUNC_SAT_F32_S], "conv_i32_trunc_sat_f32_s");
     ([IX_I32_TRUNC_SAT_F32_U], "conv_i32_trunc_sat_f32_u");
     ([IX_I32_TRUNC_SAT_F64_S], "conv_i32_trunc_sat_f64_s");
     ([IX_I32_TRUNC_SAT_F64_U], "conv_i32_trunc_sat_f64_u");
     ([IX_I64_TRUNC_SAT_F32_S], "conv_i64_trunc_sat_f32_s");
     ([IX_I64_TRUNC_SAT_F32_U], "conv_i64_trunc_sat_f32_u");
     ([IX_I64_TRUNC_SAT_F64_S], "conv_i64_trunc_sat_f64_s");
     ([IX_I64_TRUNC_SAT_F64_U], "conv_i64_trunc_sat_f64_u");
     ([IX_F32_CONVERT_I32_S], "conv_f32_convert_i32_s");
     ([IX_F32_CONVERT_I32_U], "conv_f32_convert_i32_u");
     ([IX_F32_CONVERT_I64_S], "conv_f32_convert_i64_s");
     ([IX_F32_CONVERT_I64_U], "conv_f32_convert_i64_u");
     ([IX_F64_CONVERT_I32_S], "conv_f64_convert_i32_s");
     ([IX_F64_CONVERT_I32_U], "conv_f64_convert_i32_u");
     ([IX_F64_CONVERT_I64_S], "conv_f64_convert_i64_s");
     ([IX_F64_CONVERT_I64_U], "conv_f64_convert_i64_u");
     ([IX_F32_DEMOTE_F64], "conv_f32_demote_f64");
     ([IX_F64_PROMOTE_F32], "conv_f64_promote_f32");
     ([IX_I32_REINTERPRET_F32], "conv_i32_reinterpret_f32");
     ([IX_F32_REINTERPRET_I32], "conv_f32_reinterpret_i32");
     ([IX_I64_REINTERPRET_F64], "conv_i64_reinterpret_f64");
     ([IX_F64_REINTERPRET_I64], "conv_f64_reinterpret_i64")]
  | MemoryLoadReg => arm "invalid" x (* 2259 *)
    [([IX_I32_LOAD], "mem_load_i32");
     ([IX_I64_LOAD], "mem_load_i64");
     ([IX_F32_LOAD], "mem_load_f32");
     ([IX_F64_LOAD], "mem_load_f64");
     ([IX_I32_LOAD8_S], "mem_load_i32_8s");
     ([IX_I32_LOAD8_U], "mem_load_i32_8u");
     ([IX_I32_LOAD16_S], "mem_load_i32_16s");
     ([IX_I32_LOAD16_U], "mem_load_i32_16u");
     ([IX_I64_LOAD8_S], "mem_load_i64_8s");
     ([IX_I64_LOAD8_U], "mem_load_i64_8u");
     ([IX_I64_LOAD16_S], "mem_load_i64_16s");
     ([IX_I64_LOAD16_U], "mem_load_i64_16u");
     ([IX_I64_LOAD32_S], "mem_load_i64_32s");
     ([IX_I64_LOAD32_U], "mem_load_i64_32u")]
  | MemoryStoreReg => arm "invalid" x (* 2276 *)
    [([IX_I32_STORE], "mem_store_i32");
     ([IX_I64_STORE], "mem_store_i64");
     ([IX_F32_STORE], "mem_store_f32");
     ([IX_F64_STORE], "mem_store_f64");
     ([IX_I32_STORE8], "mem_store_i32_8");
     ([IX_I32_STORE16], "mem_store_i32_16");
     ([IX_I64_STORE8], "mem_store_i64_8");
     ([IX_I64_STORE16], "mem_store_i64_16");
     ([IX_I64_STORE32], "mem_store_i64_32")]
  | MemoryOpsReg => arm "invalid" x (* 2288 *)
    [([IX_MEMORY_SIZE], "mem_size");
     ([IX_MEMORY_GROW], "mem_grow");
     ([IX_MEMORY_COPY], "mem_copy");
     ([IX_MEMORY_INIT], "mem_init");
     ([IX_MEMORY_FILL], "mem_fill")]
  | SelectReg => arm "invalid" x (* 2296 *)
    [([IX_SELECT_I32], "select_i32");
     ([IX_SELECT_I64], "select_i64");
     ([IX_SELECT_F32], "select_f32");
     ([IX_SELECT_F64], "select_f64")]
  | GlobalGetReg => arm "invalid" x (* 2303 *)
    [([IX_GLOBAL_GET_I32], "global_get_i32");
     ([IX_GLOBAL_GET_I64], "global_get_i64");
     ([IX_GLOBAL_GET_F32], "global_get_f32");
     ([IX_GLOBAL_GET_F64], "global_get_f64")]
  | GlobalSetReg => arm "invalid" x (* 2310 *)
    [([IX_GLOBAL_SET_I32], "global_set_i32");
     ([IX_GLOBAL_SET_I64], "global_set_i64");
     ([IX_GLOBAL_SET_F32], "global_set_f32");
     ([IX_GLOBAL_SET_F64], "global_set_f64")]
  | RefLocalReg => arm "invalid" x (* 2317 *)
    [([IX_REF_LOCAL_GET], "ref_local_get");
     ([IX_REF_LOCAL_SET], "ref_local_set")]
  | TableRefReg => arm "invalid" x (* 2322 *)
    [([IX_REF_NULL], "ref_null");
     ([IX_REF_IS_NULL], "ref_is_null");
     ([IX_TABLE_GET], "table_get");
     ([IX_TABLE_SET], "table_set");
     ([IX_TABLE_FILL], "table_fill")]
  end.
(** stats.rs 34-281 *)
Definition stats_name (x : Z) : string := arm
  (if (0x06 <=? x) && (x <=? 0x0A) then "reserved" else (if (0x12 <=? x) && (x <=? 0x19) then "reserved" else (if (0x1D <=? x) && (x <=? 0x1F) then "reserved" else (if (0x25 <=? x) && (x <=? 0x27) then "reserved" else (if (0xD2 <=? x) && (x <=? 0xDF) then "reserved" else (if (0xE3 <=? x) && (x <=? 0xEF) then "reserved" else "invalid_handler")%bool)%bool)%bool)%bool)%bool)%bool x
  [([IX_UNREACHABLE], "unreachable");
   ([IX_NOP], "nop");
   ([IX_BLOCK], "block");
   ([IX_LOOP], "loop");
   ([IX_IF], "if");
   ([IX_ELSE], "else");
   ([IX_END], "end");
   ([IX_BR], "br");
   ([IX_BR_IF], "br_if");
   ([IX_BR_TABLE], "br_table");
   ([IX_RETURN], "return");
   ([IX_CALL], "call");
   ([IX_CALL_INDIRECT], "call_indirect");
   ([IX_SELECT_I32; IX_SELECT_I64; IX_SELECT_F32; IX_SELECT_F64], "select");
   ([IX_LOCAL_GET], "local.get");
   ([IX_LOCAL_SET], "local.set");
   ([IX_LOCAL_TEE], "local.tee");
   ([IX_GLOBAL_GET_I32; IX_GLOBAL_GET_I64; IX_GLOBAL_GET_F32; IX_GLOBAL_GET_F64], "global.get");
   ([IX_GLOBAL_SET_I32; IX_GLOBAL_SET_I64; IX_GLOBAL_SET_F32; IX_GLOBAL_SET_F64], "global.set");
   ([IX_I32_LOAD], "i32.load");
   ([IX_I64_LOAD], "i64.load");
   ([IX_F32_LOAD], "f32.load");
   ([IX_F64_LOAD], "f64.load");
   ([IX_I32_LOAD8_S], "i32.load8_s");
   ([IX_I32_LOAD8_U], "i32.load8_u");
   ([IX_I32_LOAD16_S], "i32.load16_s");
   ([IX_I32_LOAD16_U], "i32.load16_u");
   ([IX_I64_LOAD8_S], "i64.load8_s");
   ([IX_I64_LOAD8_U], "i64.load8_u");
   ([IX_I64_LOAD16_S], "i64.load16_s");
   ([IX_I64_LOAD16_U], "i64.load16_u");
   ([IX_I64_LOAD32_S], "i64.load32_s");
   ([IX_I64_LOAD32_U], "i64.load32_u");
   ([IX_I32_STORE], "i32.store");
   ([IX_I64_STORE], "i64.store");
   ([IX_F32_STORE], "f32.store");
   ([IX_F64_STORE], "f64.store");
   ([IX_I32_STORE8], "i32.store8");
   ([IX_I32_STORE16], "i32.store16");
   ([IX_I64_STORE8], "i64.store8");
   ([IX_I64_STORE16], "i64.store16");
   ([IX_I64_STORE32], "i64.store32");
   ([IX_MEMORY_SIZE], "memory.size");
   ([IX_MEMORY_GROW], "memory.grow");
   ([IX_MEMORY_COPY], "memory.copy");
   ([IX_MEMORY_INIT], "memory.init");
   ([IX_MEMORY_FILL], "memory.fill");
   ([IX_I32_CONST], "i32.const");
   ([IX_I64_CONST], "i64.const");
   ([IX_F32_CONST], "f32.const");
   ([IX_F64_CONST], "f64.const");
   ([IX_I32_EQZ], "i32.eqz");
   ([IX_I32_EQ], "i32.eq");
   ([IX_I32_NE], "i32.ne");
   ([IX_I32_LT_S], "i32.lt_s");
   ([IX_I32_LT_U], "i32.lt_u");
   ([IX_I32_GT_S], "i32.gt_s");
   ([IX_I32_GT_U], "i32.gt_u");
   ([IX_I32_LE_S], "i32.le_s");
   ([IX_I32_LE_U], "i32.le_u");
   ([IX_I32_GE_S], "i32.ge_s");
   ([IX_I32_GE_U], "i32.ge_u");
   ([IX_I32_CLZ], "i32.clz");
   ([IX_I32_CTZ], "i32.ctz");
   ([IX_I32_POPCNT], "i32.popcnt");
   ([IX_I32_ADD], "i32.add");
   ([IX_I32_SUB], "i32.sub");
   ([IX_I32_MUL], "i32.mul");
   ([IX_I32_DIV_S], "i32.div_s");
   ([IX_I32_DIV_U], "i32.div_u");
   ([IX_I32_REM_S], "i32.rem_s");
   ([IX_I32_REM_U], "i32.rem_u");
   ([IX_I32_AND], "i32.and");
   ([IX_I32_OR], "i32.or");
   ([IX_I32_XOR], "i32.xor");
   ([IX_I32_SHL], "i32.shl");
   ([IX_I32_SHR_S], "i32.shr_s");
   ([IX_I32_SHR_U], "i32.shr_u");
   ([IX_I32_ROTL], "i32.rotl");
   ([IX_I32_ROTR], "i32.rotr");
   ([IX_I64_EQZ], "i64.eqz");
   ([IX_I64_EQ], "i64.eq");
   ([IX_I64_NE], "i64.ne");
   ([IX_I64_LT_S], "i64.lt_s");
   ([IX_I64_LT_U], "i64.lt_u");
   ([IX_I64_GT_S], "i64.gt_s");
   ([IX_I64_GT_U], "i64.gt_u");
   ([IX_I64_LE_S], "i64.le_s");
   ([IX_I64_LE_U], "i64.le_u");
   ([IX_I64_GE_S], "i64.ge_s");
   ([IX_I64_GE_U], "i64.ge_u");
   ([IX_I64_CLZ], "i64.clz");
   ([IX_I64_CTZ], "i64.ctz");
   ([IX_I64_POPCNT], "i64.popcnt");
   ([IX_I64_ADD], "i64.add");
   ([IX_I64_SUB], "i64.sub");
   ([IX_I64_MUL], "i64.mul");
   ([IX_I64_DIV_S], "i64.div_s");
   ([IX_I64_DIV_U], "i64.div_u");
   ([IX_I64_REM_S], "i64.rem_s");
   ([IX_I64_REM_U], "i64.rem_u");
   ([IX_I64_AND], "i64.and");
   ([IX_I64_OR], "i64.or");
   ([IX_I64_XOR], "i64.xor");
   ([IX_I64_SHL], "i64.shl");
   ([IX_I64_SHR_S], "i64.shr_s");
   ([IX_I64_SHR_U], "i64.shr_u");
   ([IX_I64_ROTL], "i64.rotl");
   ([IX_I64_ROTR], "i64.rotr");
   ([IX_F32_EQ], "f32.eq");
   ([IX_F32_NE], "f32.ne");
   ([IX_F32_LT], "f32.lt");
   ([IX_F32_GT], "f32.gt");
   ([IX_F32_LE], "f32.le");
   ([IX_F32_GE], "f32.ge");
   ([IX_F32_ABS], "f32.abs");
   ([IX_F32_NEG], "f32.neg");
   ([IX_F32_CEIL], "f32.ceil");
   ([IX_F32_FLOOR], "f32.floor");
   ([IX_F32_TRUNC], "f32.trunc");
   ([IX_F32_NEAREST], "f32.nearest");
   ([IX_F32_SQRT], "f32.sqrt");
   ([IX_F32_ADD], "f32.add");
   ([IX_F32_SUB], "f32.sub");
   ([IX_F32_MUL], "f32.mul");
   ([IX_F32_DIV], "f32.div");
   ([IX_F32_MIN], "f32.min");
   ([IX_F32_MAX], "f32.max");
   ([IX_F32_COPYSIGN], "f32.copysign");
   ([IX_F64_EQ], "f64.eq");
   ([IX_F64_NE], "f64.ne");
   ([IX_F64_LT], "f64.lt");
   ([IX_F64_GT], "f64.gt");
   ([IX_F64_LE], "f64.le");
   ([IX_F64_GE], "f64.ge");
   ([IX_F64_ABS], "f64.abs");
   ([IX_F64_NEG], "f64.neg");
   ([IX_F64_CEIL], "f64.ceil");
   ([IX_F64_FLOOR], "f64.floor");
   ([IX_F64_TRUNC], "f64.trunc");
   ([IX_F64_NEAREST], "f64.nearest");
   ([IX_F64_SQRT], "f64.sqrt");
   ([IX_F64_ADD], "f64.add");
   ([IX_F64_SUB], "f64.sub");
   ([IX_F64_MUL], "f64.mul");
   ([IX_F64_DIV], "f64.div");
   ([IX_F64_MIN], "f64.min");
   ([IX_F64_MAX], "f64.max");
   ([IX_F64_COPYSIGN], "f64.copysign");
   ([IX_I32_WRAP_I64], "i32.wrap_i64");
   ([IX_I32_TRUNC_F32_S], "i32.trunc_f32_s");
   ([IX_I32_TRUNC_F32_U], "i32.trunc_f32_u");
   ([IX_I32_TRUNC_F64_S], "i32.trunc_f64_s");
   ([IX_I32_TRUNC_F64_U], "i32.trunc_f64_u");
   ([IX_I64_EXTEND_I32_S], "i64.extend_i32_s");
   ([IX_I64_EXTEND_I32_U], "i64.extend_i32_u");
   ([IX_I64_TRUNC_F32_S], "i64.trunc_f32_s");
   ([IX_I64_TRUNC_F32_U], "i64.trunc_f32_u");
   ([IX_I64_TRUNC_F64_S], "i64.trunc_f64_s");
   ([IX_I64_TRUNC_F64_U], "i64.trunc_f64_u");
   ([IX_F32_CONVERT_I32_S], "f32.convert_i32_s");
   ([IX_F32_CONVERT_I32_U], "f32.convert_i32_u");
   ([IX_F32_CONVERT_I64_S], "f32.convert_i64_s");
   ([IX_F32_CONVERT_I64_U], "f32.convert_i64_u");
   ([IX_F32_DEMOTE_F64], "f32.demote_f64");
   ([IX_F64_CONVERT_I32_S], "f64.convert_i32_s");
   ([IX_F64_CONVERT_I32_U], "f64.convert_i32_u");
   ([IX_F64_CONVERT_I64_S], "f64.convert_i64_s");
   ([IX_F64_CONVERT_I64_U], "f64.convert_i64_u");
   ([IX_F64_PROMOTE_F32], "f64.promote_f32");
   ([IX_I32_REINTERPRET_F32], "i32.reinterpret_f32");
   ([IX_I64_REINTERPRET_F64], "i64.reinterpret_f64");
   ([IX_F32_REINTERPRET_I32], "f32.reinterpret_i32");
   ([IX_F64_REINTERPRET_I64], "f64.reinterpret_i64");
   ([IX_I32_EXTEND8_S], "i32.extend8_s");
   ([IX_I32_EXTEND16_S], "i32.extend16_s");
   ([IX_I64_EXTEND8_S], "i64.extend8_s");
   ([IX_I64_EXTEND16_S], "i64.extend16_s");
   ([IX_I64_EXTEND32_S], "i64.extend32_s");
   ([IX_I32_TRUNC_SAT_F32_S], "i32.trunc_sat_f32_s");
   ([IX_I32_TRUNC_SAT_F32_U], "i32.trunc_sat_f32_u");
   ([IX_I32_TRUNC_SAT_F64_S], "i32.trunc_sat_f64_s");
   ([IX_I32_TRUNC_SAT_F64_U], "i32.trunc_sat_f64_u");
   ([IX_I64_TRUNC_SAT_F32_S], "i64.trunc_sat_f32_s");
   ([IX_I64_TRUNC_SAT_F32_U], "i64.trunc_sat_f32_u");
   ([IX_I64_TRUNC_SAT_F64_S], "i64.trunc_sat_f64_s");
   ([IX_I64_TRUNC_SAT_F64_U], "i64.trunc_sat_f64_u");
   ([IX_REF_NULL], "ref.null");
   ([IX_REF_IS_NULL], "ref.is_null");
   ([IX_TABLE_GET], "table.get");
   ([IX_TABLE_SET], "table.set");
   ([IX_TABLE_FILL], "table.fill");
   ([IX_REF_LOCAL_GET], "local.get");
   ([IX_REF_LOCAL_SET], "local.set");
   ([IX_CALL_WASI], "call_wasi")].
(** trace.rs 307-547 *)
Definition trace_name (x : Z) : string := arm
  "unknown" x
  [([IX_UNREACHABLE], "unreachable");
   ([IX_NOP], "nop");
   ([IX_BLOCK], "block");
   ([IX_LOOP], "loop");
   ([IX_IF], "if");
   ([IX_ELSE], "else");
   ([IX_END], "end");
   ([IX_BR], "br");
   ([IX_BR_IF], "br_if");
   ([IX_BR_TABLE], "br_table");
   ([IX_RETURN], "return");
   ([IX_CALL], "call");
   ([IX_CALL_INDIRECT], "call_indirect");
   ([IX_SELECT_I32; IX_SELECT_I64; IX_SELECT_F32; IX_SELECT_F64], "select");
   ([IX_LOCAL_GET], "local.get");
   ([IX_LOCAL_SET], "local.set");
   ([IX_LOCAL_TEE], "local.tee");
   ([IX_GLOBAL_GET_I32; IX_GLOBAL_GET_I64; IX_GLOBAL_GET_F32; IX_GLOBAL_GET_F64], "global.get");
   ([IX_GLOBAL_SET_I32; IX_GLOBAL_SET_I64; IX_GLOBAL_SET_F32; IX_GLOBAL_SET_F64], "global.set");
   ([IX_I32_LOAD], "i32.load");
   ([IX_I64_LOAD], "i64.load");
   ([IX_F32_LOAD], "f32.load");
   ([IX_F64_LOAD], "f64.load");
   ([IX_I32_LOAD8_S], "i32.load8_s");
   ([IX_I32_LOAD8_U], "i32.load8_u");
   ([IX_I32_LOAD16_S], "i32.load16_s");
   ([IX_I32_LOAD16_U], "i32.load16_u");
   ([IX_I64_LOAD8_S], "i64.load8_s");
   ([IX_I64_LOAD8_U], "i64.load8_u");
   ([IX_I64_LOAD16_S], "i64.load16_s");
   ([IX_I64_LOAD16_U], "i64.load16_u");
   ([IX_I64_LOAD32_S], "i64.load32_s");
   ([IX_I64_LOAD32_U], "i64.load32_u");
   ([IX_I32_STORE], "i32.store");
   ([IX_I64_STORE], "i64.store");
   ([IX_F32_STORE], "f32.store");
   ([IX_F64_STORE], "f64.store");
   ([IX_I32_STORE8], "i32.store8");
   ([IX_I32_STORE16], "i32.store16");
   ([IX_I64_STORE8], "i64.store8");
   ([IX_I64_STORE16], "i64.store16");
   ([IX_I64_STORE32], "i64.store32");
   ([IX_MEMORY_SIZE], "memory.size");
   ([IX_MEMORY_GROW], "memory.grow");
   ([IX_MEMORY_COPY], "memory.copy");
   ([IX_MEMORY_INIT], "memory.init");
   ([IX_MEMORY_FILL], "memory.fill");
   ([IX_I32_CONST], "i32.const");
   ([IX_I64_CONST], "i64.const");
   ([IX_F32_CONST], "f32.const");
   ([IX_F64_CONST], "f64.const");
   ([IX_I32_EQZ], "i32.eqz");
   ([IX_I32_EQ], "i32.eq");
   ([IX_I32_NE], "i32.ne");
   ([IX_I32_LT_S], "i32.lt_s");
   ([IX_I32_LT_U], "i32.lt_u");
   ([IX_I32_GT_S], "i32.gt_s");
   ([IX_I32_GT_U], "i32.gt_u");
   ([IX_I32_LE_S], "i32.le_s");
   ([IX_I32_LE_U], "i32.le_u");
   ([IX_I32_GE_S], "i32.ge_s");
   ([IX_I32_GE_U], "i32.ge_u");
   ([IX_I32_CLZ], "i32.clz");
   ([IX_I32_CTZ], "i32.ctz");
   ([IX_I32_POPCNT], "i32.popcnt");
   ([IX_I32_ADD], "i32.add");
   ([IX_I32_SUB], "i32.sub");
   ([IX_I32_MUL], "i32.mul");
   ([IX_I32_DIV_S], "i32.div_s");
   ([IX_I32_DIV_U], "i32.div_u");
   ([IX_I32_REM_S], "i32.rem_s");
   ([IX_I32_REM_U], "i32.rem_u");
   ([IX_I32_AND], "i32.and");
   ([IX_I32_OR], "i32.or");
   ([IX_I32_XOR], "i32.xor");
   ([IX_I32_SHL], "i32.shl");
   ([IX_I32_SHR_S], "i32.shr_s");
   ([IX_I32_SHR_U], "i32.shr_u");
   ([IX_I32_ROTL], "i32.rotl");
   ([IX_I32_ROTR], "i32.rotr");
   ([IX_I64_EQZ], "i64.eqz");
   ([IX_I64_EQ], "i64.eq");
   ([IX_I64_NE], "i64.ne");
   ([IX_I64_LT_S], "i64.lt_s");
   ([IX_I64_LT_U], "i64.lt_u");
   ([IX_I64_GT_S], "i64.gt_s");
   ([IX_I64_GT_U], "i64.gt_u");
   ([IX_I64_LE_S], "i64.le_s");
   ([IX_I64_LE_U], "i64.le_u");
   ([IX_I64_GE_S], "i64.ge_s");
   ([IX_I64_GE_U], "i64.ge_u");
   ([IX_I64_CLZ], "i64.clz");
   ([IX_I64_CTZ], "i64.ctz");
   ([IX_I64_POPCNT], "i64.popcnt");
   ([IX_I64_ADD], "i64.add");
   ([IX_I64_SUB], "i64.sub");
   ([IX_I64_MUL], "i64.mul");
   ([IX_I64_DIV_S], "i64.div_s");
   ([IX_I64_DIV_U], "i64.div_u");
   ([IX_I64_REM_S], "i64.rem_s");
   ([IX_I64_REM_U], "i64.rem_u");
   ([IX_I64_AND], "i64.and");
   ([IX_I64_OR], "i64.or");
   ([IX_I64_XOR], "i64.xor");
   ([IX_I64_SHL], "i64.shl");
   ([IX_I64_SHR_S], "i64.shr_s");
   ([IX_I64_SHR_U], "i64.shr_u");
   ([IX_I64_ROTL], "i64.rotl");
   ([IX_I64_ROTR], "i64.rotr");
   ([IX_F32_EQ], "f32.eq");
   ([IX_F32_NE], "f32.ne");
   ([IX_F32_LT], "f32.lt");
   ([IX_F32_GT], "f32.gt");
   ([IX_F32_LE], "f32.le");
   ([IX_F32_GE], "f32.ge");
   ([IX_F32_ABS], "f32.abs");
   ([IX_F32_NEG], "f32.neg");
   ([IX_F32_CEIL], "f32.ceil");
   ([IX_F32_FLOOR], "f32.floor");
   ([IX_F32_TRUNC], "f32.trunc");
   ([IX_F32_NEAREST], "f32.nearest");
   ([IX_F32_SQRT], "f32.sqrt");
   ([IX_F32_ADD], "f32.add");
   ([IX_F32_SUB], "f32.sub");
   ([IX_F32_MUL], "f32.mul");
   ([IX_F32_DIV], "f32.div");
   ([IX_F32_MIN], "f32.min");
   ([IX_F32_MAX], "f32.max");
   ([IX_F32_COPYSIGN], "f32.copysign");
   ([IX_F64_EQ], "f64.eq");
   ([IX_F64_NE], "f64.ne");
   ([IX_F64_LT], "f64.lt");
   ([IX_F64_GT], "f64.gt");
   ([IX_F64_LE], "f64.le");
   ([IX_F64_GE], "f64.ge");
   ([IX_F64_ABS], "f64.abs");
   ([IX_F64_NEG], "f64.neg");
   ([IX_F64_CEIL], "f64.ceil");
   ([IX_F64_FLOOR], "f64.floor");
   ([IX_F64_TRUNC], "f64.trunc");
   ([IX_F64_NEAREST], "f64.nearest");
   ([IX_F64_SQRT], "f64.sqrt");
   ([IX_F64_ADD], "f64.add");
   ([IX_F64_SUB], "f64.sub");
   ([IX_F64_MUL], "f64.mul");
   ([IX_F64_DIV], "f64.div");
   ([IX_F64_MIN], "f64.min");
   ([IX_F64_MAX], "f64.max");
   ([IX_F64_COPYSIGN], "f64.copysign");
   ([IX_I32_WRAP_I64], "i32.wrap_i64");
   ([IX_I32_TRUNC_F32_S], "i32.trunc_f32_s");
   ([IX_I32_TRUNC_F32_U], "i32.trunc_f32_u");
   ([IX_I32_TRUNC_F64_S], "i32.trunc_f64_s");
   ([IX_I32_TRUNC_F64_U], "i32.trunc_f64_u");
   ([IX_I64_EXTEND_I32_S], "i64.extend_i32_s");
   ([IX_I64_EXTEND_I32_U], "i64.extend_i32_u");
   ([IX_I64_TRUNC_F32_S], "i64.trunc_f32_s");
   ([IX_I64_TRUNC_F32_U], "i64.trunc_f32_u");
   ([IX_I64_TRUNC_F64_S], "i64.trunc_f64_s");
   ([IX_I64_TRUNC_F64_U], "i64.trunc_f64_u");
   ([IX_F32_CONVERT_I32_S], "f32.convert_i32_s");
   ([IX_F32_CONVERT_I32_U], "f32.convert_i32_u");
   ([IX_F32_CONVERT_I64_S], "f32.convert_i64_s");
   ([IX_F32_CONVERT_I64_U], "f32.convert_i64_u");
   ([IX_F32_DEMOTE_F64], "f32.demote_f64");
   ([IX_F64_CONVERT_I32_S], "f64.convert_i32_s");
   ([IX_F64_CONVERT_I32_U], "f64.convert_i32_u");
   ([IX_F64_CONVERT_I64_S], "f64.convert_i64_s");
   ([IX_F64_CONVERT_I64_U], "f64.convert_i64_u");
   ([IX_F64_PROMOTE_F32], "f64.promote_f32");
   ([IX_I32_REINTERPRET_F32], "i32.reinterpret_f32");
   ([IX_I64_REINTERPRET_F64], "i64.reinterpret_f64");
   ([IX_F32_REINTERPRET_I32], "f32.reinterpret_i32");
   ([IX_F64_REINTERPRET_I64], "f64.reinterpret_i64");
   ([IX_I32_EXTEND8_S], "i32.extend8_s");
   ([IX_I32_EXTEND16_S], "i32.extend16_s");
   ([IX_I64_EXTEND8_S], "i64.extend8_s");
   ([IX_I64_EXTEND16_S], "i64.extend16_s");
   ([IX_I64_EXTEND32_S], "i64.extend32_s");
   ([IX_I32_TRUNC_SAT_F32_S], "i32.trunc_sat_f32_s");
   ([IX_I32_TRUNC_SAT_F32_U], "i32.trunc_sat_f32_u");
   ([IX_I32_TRUNC_SAT_F64_S], "i32.trunc_sat_f64_s");
   ([IX_I32_TRUNC_SAT_F64_U], "i32.trunc_sat_f64_u");
   ([IX_I64_TRUNC_SAT_F32_S], "i64.trunc_sat_f32_s");
   ([IX_I64_TRUNC_SAT_F32_U], "i64.trunc_sat_f32_u");
   ([IX_I64_TRUNC_SAT_F64_S], "i64.trunc_sat_f64_s");
   ([IX_I64_TRUNC_SAT_F64_U], "i64.trunc_sat_f64_u");
   ([IX_REF_NULL], "ref.null");
   ([IX_REF_IS_NULL], "ref.is_null");
   ([IX_TABLE_GET], "table.get");
   ([IX_TABLE_SET], "table.set");
   ([IX_TABLE_FILL], "table.fill");
   ([IX_REF_LOCAL_GET], "local.get");
   ([IX_REF_LOCAL_SET], "local.set");
   ([IX_CALL_WASI], "call_wasi")].
