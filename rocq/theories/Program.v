(** tests/wasi/sched_yield.wasm, a Rust program compiled to WASI (197 functions), as a term.  Written by
    tools/program.py from the binary. *)
From Coq Require Import String ZArith List Bool.
From Verif Require Import Word Value Numeric Float Mem Store Regs IR Machine Wasm Decoder Module Load.
Import ListNotations.
Local Open Scope string_scope.
Local Open Scope list_scope.
Local Open Scope nat_scope.
Definition sched_yield : list payload :=
  [ PVersion 1;
    PTypes [Some ([], []); Some ([TI32], []); Some ([TI32; TI32], [TI32]); Some ([TI32], [TI32]); Some ([TI32; TI32; TI32], []); Some ([TI32; TI32; TI32], [TI32]); Some ([TI32; TI32], []); Some ([TI32; TI32; TI32; TI32], []); Some ([], [TI32]); Some ([TI32; TI32; TI32; TI32], [TI32]); Some ([TI32; TI32; TI32; TI32; TI32], []); Some ([TI32; TI32; TI32; TI32; TI32], [TI32]); Some ([TI32; TI32; TI32; TI32; TI32; TI32], [TI32]); Some ([TI32; TI32; TI32; TI32; TI32; TI32; TI32], []); Some ([TI32; TI32; TI32; TI32; TI32; TI32; TI32], [TI32])];
    PImports [Some (WiFunc (Some 13) 8); Some (WiFunc (Some 1) 9); Some (WiFunc (Some 7) 2); Some (WiFunc (Some 8) 2); Some (WiFunc (Some 0) 1)];
    PFuncs [Some 0; Some 0; Some 9; Some 3; Some 1; Some 8; Some 1; Some 3; Some 3; Some 10; Some 0; Some 0; Some 8; Some 2; Some 4; Some 9; Some 6; Some 2; Some 0; Some 0; Some 6; Some 6; Some 2; Some 1; Some 6; Some 6; Some 2; Some 2; Some 2; Some 2; Some 10; Some 2; Some 2; Some 5; Some 2; Some 2; Some 2; Some 2; Some 1; Some 1; Some 1; Some 1; Some 1; Some 1; Some 1; Some 6; Some 6; Some 10; Some 2; Some 2; Some 5; Some 7; Some 1; Some 11; Some 0; Some 4; Some 0; Some 1; Some 4; Some 4; Some 7; Some 7; Some 3; Some 7; Some 7; Some 6; Some 7; Some 4; Some 5; Some 5; Some 7; Some 4; Some 8; Some 0; Some 1; Some 8; Some 7; Some 2; Some 1; Some 1; Some 6; Some 2; Some 4; Some 9; Some 4; Some 4; Some 4; Some 3; Some 1; Some 6; Some 6; Some 2; Some 6; Some 6; Some 6; Some 2; Some 10; Some 6; Some 7; Some 7; Some 3; Some 6; Some 6; Some 6; Some 2; Some 7; Some 2; Some 3; Some 3; Some 5; Some 1; Some 1; Some 2; Some 2; Some 6; Some 5; Some 2; Some 1; Some 0; Some 0; Some 2; Some 2; Some 1; Some 0; Some 2; Some 3; Some 3; Some 0; Some 0; Some 5; Some 5; Some 2; Some 2; Some 2; Some 3; Some 3; Some 5; Some 1; Some 4; Some 7; Some 6; Some 4; Some 6; Some 4; Some 4; Some 5; Some 4; Some 6; Some 5; Some 2; Some 5; Some 12; Some 4; Some 2; Some 2; Some 1; Some 2; Some 3; Some 3; Some 4; Some 11; Some 10; Some 4; Some 2; Some 2; Some 1; Some 2; Some 4; Some 6; Some 13; Some 2; Some 2; Some 5; Some 2; Some 3; Some 2; Some 11; Some 5; Some 7; Some 2; Some 5; Some 10; Some 5; Some 2; Some 7; Some 4; Some 4; Some 4; Some 10; Some 14; Some 5; Some 2];
    PTables [Some 63%Z];
    PMems [Some (17%Z, None)];
    PGlobals [Some [CVal (VI32 1048576%Z)]; Some [CVal (VI32 0%Z)]];
    PExports [Some ("memory", ExMem 0); Some ("_start", ExFunc 6); Some ("__main_void", ExFunc 17)];
    PElems [Some {| e_extern := false; e_idxes := Some [16; 12; 8; 27; 111; 22; 33; 169; 82; 32; 53; 85; 31; 44; 74; 36; 41; 73; 34; 39; 38; 37; 40; 47; 55; 54; 42; 48; 65; 66; 67; 70; 68; 69; 72; 103; 104; 105; 106; 75; 71; 60; 30; 29; 100; 97; 98; 99; 49; 96; 94; 95; 51; 159; 175; 171; 176; 154; 188; 177; 178; 180]; e_init := None; e_mode := MActive 0 [CVal (VI32 1%Z)] |}];
    PCode {| b_locals := []; b_badlocals := false; b_ops := [FEnd]; b_bad := false |};
    PCode {| b_locals := [TI32]; b_badlocals := false; b_ops := [FBlock false [] []; FBlock false [] []; FBasic (BOp (SGlobalGet TI32 1)); FBasic (BConst (VI32 1057192%Z)); FBasic (BOp (SNum2 (B_int W32 Iadd))); FBasic (BOp (SLoad LI32 0%Z)); FBrIf 0; FBasic (BOp (SGlobalGet TI32 1)); FBasic (BConst (VI32 1057192%Z)); FBasic (BOp (SNum2 (B_int W32 Iadd))); FBasic (BConst (VI32 1%Z)); FBasic (BOp (SStore SI32 0%Z)); FCall 5; FCall 17; FBasic (BSet 0); FCall 133; FBasic (BGet 0); FBrIf 1; FReturn; FEnd; FUnreachable; FEnd; FBasic (BGet 0); FCall 127; FUnreachable; FEnd]; b_bad := false |};
    PCode {| b_locals := [TI32; TI32; TI32; TI32; TI32; TI32; TI32; TI32; TI32; TI32]; b_badlocals := false; b_ops := [FBasic (BOp (SGlobalGet TI32 0)); FBasic (BSet 4); FBasic (BConst (VI32 16%Z)); FBasic (BSet 5); FBasic (BGet 4); FBasic (BGet 5); FBasic (BOp (SNum2 (B_int W32 Isub))); FBasic (BSet 6); FBasic (BGet 6); FBasic (BOp (SGlobalSet TI32 0)); FBasic (BGet 6); FBasic (BGet 0); FBasic (BOp (SStore SI32 12%Z)); FBasic (BConst (VI32 12%Z)); FBasic (BSet 7); FBasic (BGet 6); FBasic (BGet 7); FBasic (BOp (SNum2 (B_int W32 Iadd))); FBasic (BSet 8); FBasic (BGet 8); FBasic (BSet 9); FBasic (BConst (VI32 1048576%Z)); FBasic (BSet 10); FBasic (BGet 9); FBasic (BGet 10); FBasic (BGet 1); FBasic (BGet 2); FBasic (BGet 3); FCall 58; FBasic (BSet 11); FBasic (BConst (VI32 16%Z)); FBasic (BSet 12); FBasic (BGet 6); FBasic (BGet 12); FBasic (BOp (SNum2 (B_int W32 Iadd))); FBasic (BSet 13); FBasic (BGet 13); FBasic (BOp (SGlobalSet TI32 0)); FBasic (BGet 11); FReturn; FEnd]; b_bad := false |};
    PCode {| b_locals := [TI32; TI32; TI32; TI32]; b_badlocals := false; b_ops := [FBasic (BGet 0); FBasic (BOp (SLoad LI32 0%Z)); FBasic (BSet 1); FBasic (BGet 1); FCall 9; FCall 10; FBasic (BSet 2); FBasic (BConst (VI32 255%Z)); FBasic (BSet 3); FBasic (BGet 2); FBasic (BGet 3); FBasic (BOp (SNum2 (B_int W32 Iand))); FBasic (BSet 4); FBasic (BGet 4); FReturn; FEnd]; b_bad := false |};
    PCode {| b_locals := []; b_badlocals := false; b_ops := [FBasic (BGet 0); FCall 11; FReturn; FEnd]; b_bad := false |};
    PCode {| b_locals := [TI32]; b_badlocals := false; b_ops := [FBasic (BConst (VI32 0%Z)); FBasic (BSet 0); FBasic (BGet 0); FReturn; FEnd]; b_bad := false |};
    PCode {| b_locals := [TI32; TI32; TI32; TI32; TI32]; b_badlocals := false; b_ops := [FBasic (BOp (SGlobalGet TI32 0)); FBasic (BSet 1); FBasic (BConst (VI32 16%Z)); FBasic (BSet 2); FBasic (BGet 1); FBasic (BGet 2); FBasic (BOp (SNum2 (B_int W32 Isub))); FBasic (BSet 3); FBasic (BGet 3); FBasic (BOp (SGlobalSet TI32 0)); FBasic (BGet 0); FCallInd 0 0; FBasic (BConst (VI32 16%Z)); FBasic (BSet 4); FBasic (BGet 3); FBasic (BGet 4); FBasic (BOp (SNum2 (B_int W32 Iadd))); FBasic (BSet 5); FBasic (BGet 5); FBasic (BOp (SGlobalSet TI32 0)); FReturn; FEnd]; b_bad := false |};
    PCode {| b_locals := [TI32; TI32; TI32; TI32; TI32; TI32; TI32]; b_badlocals := false; b_ops := [FBasic (BOp (SGlobalGet TI32 0)); FBasic (BSet 1); FBasic (BConst (VI32 16%Z)); FBasic (BSet 2); FBasic (BGet 1); FBasic (BGet 2); FBasic (BOp (SNum2 (B_int W32 Isub))); FBasic (BSet 3); FBasic (BGet 3); FBasic (BOp (SGlobalSet TI32 0)); FBasic (BGet 0); FBasic (BOp (SLoad LI32 0%Z)); FBasic (BSet 4); FBasic (BGet 4); FCall 13; FBasic (BSet 5); FBasic (BConst (VI32 16%Z)); FBasic (BSet 6); FBasic (BGet 3); FBasic (BGet 6); FBasic (BOp (SNum2 (B_int W32 Iadd))); FBasic (BSet 7); FBasic (BGet 7); FBasic (BOp (SGlobalSet TI32 0)); FBasic (BGet 5); FReturn; FEnd]; b_bad := false |};
    PCode {| b_locals := [TI32; TI32; TI32; TI32; TI32; TI32; TI32; TI32; TI32]; b_badlocals := false; b_ops := [FBasic (BOp (SGlobalGet TI32 0)); FBasic (BSet 1); FBasic (BConst (VI32 16%Z)); FBasic (BSet 2); FBasic (BGet 1); FBasic (BGet 2); FBasic (BOp (SNum2 (B_int W32 Isub))); FBasic (BSet 3); FBasic (BGet 3); FBasic (BOp (SGlobalSet TI32 0)); FBasic (BGet 3); FBasic (BGet 0); FBasic (BOp (SStore SI32 8%Z)); FBasic (BConst (VI32 8%Z)); FBasic (BSet 4); FBasic (BGet 3); FBasic (BGet 4); FBasic (BOp (SNum2 (B_int W32 Iadd))); FBasic (BSet 5); FBasic (BGet 5); FBasic (BSet 6); FBasic (BGet 6); FCall 8; FBasic (BSet 7); FBasic (BConst (VI32 16%Z)); FBasic (BSet 8); FBasic (BGet 3); FBasic (BGet 8); FBasic (BOp (SNum2 (B_int W32 Iadd))); FBasic (BSet 9); FBasic (BGet 9); FBasic (BOp (SGlobalSet TI32 0)); FBasic (BGet 7); FReturn; FEnd]; b_bad := false |};
    PCode {| b_locals := [TI32; TI32; TI32; TI32; TI32; TI32; TI32; TI32; TI32; TI32; TI32; TI32; TI32; TI32; TI32]; b_badlocals := false; b_ops := [FBasic (BOp (SGlobalGet TI32 0)); FBasic (BSet 5); FBasic (BConst (VI32 16%Z)); FBasic (BSet 6); FBasic (BGet 5); FBasic (BGet 6); FBasic (BOp (SNum2 (B_int W32 Isub))); FBasic (BSet 7); FBasic (BGet 7); FBasic (BOp (SGlobalSet TI32 0)); FBasic (BGet 7); FBasic (BGet 0); FBasic (BOp (SStore SI32_16 10%Z)); FBasic (BGet 7); FBasic (BGet 1); FBasic (BOp (SStore SI32_16 12%Z)); FBasic (BGet 7); FBasic (BOp (SLoad LI32_16u 10%Z)); FBasic (BSet 8); FBasic (BConst (VI32 65535%Z)); FBasic (BSet 9); FBasic (BGet 8); FBasic (BGet 9); FBasic (BOp (SNum2 (B_int W32 Iand))); FBasic (BSet 10); FBasic (BConst (VI32 1%Z)); FBasic (BSet 11); FBasic (BGet 10); FBasic (BGet 11); FBasic (BOp (SNum2 (B_int W32 Iand))); FBasic (BSet 12); FBlock false [] []; FBasic (BGet 12); FBasic (BOp (SNum1 (U_eqz W32))); FBrIf 0; FBasic (BGet 7); FBasic (BOp (SLoad LI32_16u 12%Z)); FBasic (BSet 13); FBasic (BGet 7); FBasic (BGet 13); FBasic (BOp (SStore SI32_16 14%Z)); FBasic (BConst (VI32 14%Z)); FBasic (BSet 14); FBasic (BGet 7); FBasic (BGet 14); FBasic (BOp (SNum2 (B_int W32 Iadd))); FBasic (BSet 15); FBasic (BGet 15); FBasic (BSet 16); FBasic (BConst (VI32 1048600%Z)); FBasic (BSet 17); FBasic (BGet 2); FBasic (BGet 3); FBasic (BGet 16); FBasic (BGet 17); FBasic (BGet 4); FCall 166; FUnreachable; FEnd; FBasic (BConst (VI32 16%Z)); FBasic (BSet 18); FBasic (BGet 7); FBasic (BGet 18); FBasic (BOp (SNum2 (B_int W32 Iadd))); FBasic (BSet 19); FBasic (BGet 19); FBasic (BOp (SGlobalSet TI32 0)); FReturn; FEnd]; b_bad := false |};
    PCode {| b_locals := [TI32; TI32; TI32; TI32; TI32; TI32; TI32; TI32; TI32; TI32; TI32; TI32]; b_badlocals := false; b_ops := [FBasic (BOp (SGlobalGet TI32 0)); FBasic (BSet 0); FBasic (BConst (VI32 16%Z)); FBasic (BSet 1); FBasic (BGet 0); FBasic (BGet 1); FBasic (BOp (SNum2 (B_int W32 Isub))); FBasic (BSet 2); FBasic (BGet 2); FBasic (BOp (SGlobalSet TI32 0)); FBasic (BConst (VI32 8%Z)); FBasic (BSet 3); FBasic (BGet 2); FBasic (BGet 3); FBasic (BOp (SNum2 (B_int W32 Iadd))); FBasic (BSet 4); FBasic (BGet 4); FCall 28; FBasic (BGet 2); FBasic (BOp (SLoad LI32_16u 8%Z)); FBasic (BSet 5); FBasic (BGet 2); FBasic (BOp (SLoad LI32_16u 10%Z)); FBasic (BSet 6); FBasic (BConst (VI32 1048616%Z)); FBasic (BSet 7); FBasic (BConst (VI32 11%Z)); FBasic (BSet 8); FBasic (BConst (VI32 1048652%Z)); FBasic (BSet 9); FBasic (BGet 5); FBasic (BGet 6); FBasic (BGet 7); FBasic (BGet 8); FBasic (BGet 9); FCall 14; FBasic (BConst (VI32 16%Z)); FBasic (BSet 10); FBasic (BGet 2); FBasic (BGet 10); FBasic (BOp (SNum2 (B_int W32 Iadd))); FBasic (BSet 11); FBasic (BGet 11); FBasic (BOp (SGlobalSet TI32 0)); FReturn; FEnd]; b_bad := false |};
    PCode {| b_locals := []; b_badlocals := false; b_ops := [FCall 15; FReturn; FEnd]; b_bad := false |};
    PCode {| b_locals := [TI32; TI32; TI32; TI32]; b_badlocals := false; b_ops := [FBasic (BConst (VI32 1%Z)); FBasic (BSet 0); FBasic (BConst (VI32 0%Z)); FBasic (BSet 1); FBasic (BConst (VI32 0%Z)); FBasic (BSet 2); FBasic (BGet 0); FBasic (BGet 1); FBasic (BGet 1); FBasic (BGet 2); FCall 7; FBasic (BSet 3); FBasic (BGet 3); FReturn; FEnd]; b_bad := false |};
    PCode {| b_locals := [TI32]; b_badlocals := false; b_ops := [FBasic (BGet 0); FBasic (BGet 1); FCall 86; FBasic (BSet 2); FBasic (BGet 2); FReturn; FEnd]; b_bad := false |};
    PCode {| b_locals := []; b_badlocals := false; b_ops := [FBasic (BGet 0); FBasic (BGet 1); FBasic (BGet 2); FCall 87; FReturn; FEnd]; b_bad := false |};
    PCode {| b_locals := [TI32]; b_badlocals := false; b_ops := [FBasic (BGet 0); FBasic (BGet 1); FBasic (BGet 2); FBasic (BGet 3); FCall 88; FBasic (BSet 4); FBasic (BGet 4); FReturn; FEnd]; b_bad := false |};
    PCode {| b_locals := []; b_badlocals := false; b_ops := [FBasic (BGet 0); FBasic (BGet 1); FCall 108; FReturn; FEnd]; b_bad := false |};
    PCode {| b_locals := [TI32; TI32; TI32; TI32; TI32; TI32; TI32; TI32; TI32; TI32; TI32; TI32; TI32; TI32; TI32; TI32; TI32; TI32; TI32; TI32; TI32; TI32; TI32]; b_badlocals := false; b_ops := [FBasic (BOp (SGlobalGet TI32 0)); FBasic (BSet 2); FBasic (BConst (VI32 16%Z)); FBasic (BSet 3); FBasic (BGet 2); FBasic (BGet 3); FBasic (BOp (SNum2 (B_int W32 Isub))); FBasic (BSet 4); FBasic (BGet 4); FBasic (BOp (SGlobalSet TI32 0)); FBasic (BGet 1); FBasic (BOp (SLoad LI32 8%Z)); FBasic (BSet 5); FBasic (BConst (VI32 33554432%Z)); FBasic (BSet 6); FBasic (BGet 5); FBasic (BGet 6); FBasic (BOp (SNum2 (B_int W32 Iand))); FBasic (BSet 7); FBlock false [] []; FBlock false [] []; FBlock false [] []; FBlock false [] []; FBlock false [] []; FBasic (BGet 7); FBrIf 0; FBasic (BGet 1); FBasic (BOp (SLoad LI32 8%Z)); FBasic (BSet 8); FBasic (BConst (VI32 67108864%Z)); FBasic (BSet 9); FBasic (BGet 8); FBasic (BGet 9); FBasic (BOp (SNum2 (B_int W32 Iand))); FBasic (BSet 10); FBasic (BGet 10); FBasic (BOp (SNum1 (U_eqz W32))); FBrIf 1; FBr 2; FEnd; FBasic (BGet 0); FBasic (BGet 1); FCall 161; FBasic (BSet 11); FBasic (BConst (VI32 1%Z)); FBasic (BSet 12); FBasic (BGet 11); FBasic (BGet 12); FBasic (BOp (SNum2 (B_int W32 Iand))); FBasic (BSet 13); FBasic (BGet 4); FBasic (BGet 13); FBasic (BOp (SStore SI32_8 15%Z)); FBr 3; FEnd; FBasic (BGet 0); FBasic (BGet 1); FCall 168; FBasic (BSet 14); FBasic (BConst (VI32 1%Z)); FBasic (BSet 15); FBasic (BGet 14); FBasic (BGet 15); FBasic (BOp (SNum2 (B_int W32 Iand))); FBasic (BSet 16); FBasic (BGet 4); FBasic (BGet 16); FBasic (BOp (SStore SI32_8 15%Z)); FBr 1; FEnd; FBasic (BGet 0); FBasic (BGet 1); FCall 196; FBasic (BSet 17); FBasic (BConst (VI32 1%Z)); FBasic (BSet 18); FBasic (BGet 17); FBasic (BGet 18); FBasic (BOp (SNum2 (B_int W32 Iand))); FBasic (BSet 19); FBasic (BGet 4); FBasic (BGet 19); FBasic (BOp (SStore SI32_8 15%Z)); FEnd; FEnd; FBasic (BGet 4); FBasic (BOp (SLoad LI32_8u 15%Z)); FBasic (BSet 20); FBasic (BConst (VI32 1%Z)); FBasic (BSet 21); FBasic (BGet 20); FBasic (BGet 21); FBasic (BOp (SNum2 (B_int W32 Iand))); FBasic (BSet 22); FBasic (BConst (VI32 16%Z)); FBasic (BSet 23); FBasic (BGet 4); FBasic (BGet 23); FBasic (BOp (SNum2 (B_int W32 Iadd))); FBasic (BSet 24); FBasic (BGet 24); FBasic (BOp (SGlobalSet TI32 0)); FBasic (BGet 22); FReturn; FEnd]; b_bad := false |};
    PCode {| b_locals := []; b_badlocals := false; b_ops := [FCall 24; FUnreachable; FEnd]; b_bad := false |};
    PCode {| b_locals := [TI32; TI32]; b_badlocals := false; b_ops := [FBasic (BConst (VI32 1048668%Z)); FBasic (BSet 0); FBasic (BConst (VI32 199%Z)); FBasic (BSet 1); FBasic (BGet 0); FBasic (BGet 1); FCall 173; FUnreachable; FEnd]; b_bad := false |};
    PCode {| b_locals := [TI32; TI32; TI32; TI32; TI32; TI32; TI32; TI32; TI32; TI32; TI32; TI32; TI32; TI32; TI32; TI32; TI32; TI32; TI32; TI32; TI32; TI32; TI32; TI32; TI32; TI32; TI32; TI32; TI32; TI32; TI32; TI32; TI32; TI32; TI32; TI32; TI32; TI32; TI32; TI32; TI32; TI32; TI32; TI32; TI32; TI32; TI32; TI32; TI32; TI32; TI32; TI32; TI32; TI32; TI32; TI32; TI32; TI32; TI32; TI32; TI32; TI32; TI32; TI32; TI32; TI32; TI32; TI32; TI32; TI32; TI32; TI32; TI32; TI32; TI32; TI32; TI32; TI32; TI32; TI32; TI32; TI32; TI32; TI32; TI32; TI32; TI32; TI32; TI32; TI32; TI32; TI32; TI32; TI32; TI32; TI32; TI32; TI32; TI32; TI32; TI32; TI32; TI32; TI32; TI32; TI32; TI32; TI32; TI32; TI32; TI32; TI32; TI32; TI32; TI32; TI32; TI32; TI32; TI32; TI32; TI32; TI32; TI32; TI32; TI32; TI32; TI32; TI32; TI32; TI32; TI32; TI32; TI32; TI32; TI32; TI32; TI32; TI32; TI32; TI32; TI32; TI32; TI32; TI32; TI32; TI32; TI32; TI32; TI32; TI32; TI32; TI32; TI32; TI32; TI32; TI32; TI32; TI32; TI32; TI32; TI32; TI32; TI32]; b_badlocals := false; b_ops := [FBasic (BOp (SGlobalGet TI32 0)); FBasic (BSet 2); FBasic (BConst (VI32 16%Z)); FBasic (BSet 3); FBasic (BGet 2); FBasic (BGet 3); FBasic (BOp (SNum2 (B_int W32 Isub))); FBasic (BSet 4); FBasic (BGet 4); FBasic (BOp (SGlobalSet TI32 0)); FBasic (BGet 1); FBasic (BOp (SLoad LI32_16u 0%Z)); FBasic (BSet 5); FBasic (BConst (VI32 76%Z)); FBasic (BSet 6); FBasic (BGet 5); FBasic (BGet 6); FBasic (BOp (SNum2 (B_irel W32 Igt_u))); FBasic BDrop; FBlock false [] []; FBlock false [] []; FBlock false [] []; FBlock false [] []; FBlock false [] []; FBlock false [] []; FBlock false [] []; FBlock false [] []; FBlock false [] []; FBlock false [] []; FBlock false [] []; FBlock false [] []; FBlock false [] []; FBlock false [] []; FBlock false [] []; FBlock false [] []; FBlock false [] []; FBlock false [] []; FBlock false [] []; FBlock false [] []; FBlock false [] []; FBlock false [] []; FBlock false [] []; FBlock false [] []; FBlock false [] []; FBlock false [] []; FBlock false [] []; FBlock false [] []; FBlock false [] []; FBlock false [] []; FBlock false [] []; FBlock false [] []; FBlock false [] []; FBlock false [] []; FBlock false [] []; FBlock false [] []; FBlock false [] []; FBlock false [] []; FBlock false [] []; FBlock false [] []; FBlock false [] []; FBlock false [] []; FBlock false [] []; FBlock false [] []; FBlock false [] []; FBlock false [] []; FBlock false [] []; FBlock false [] []; FBlock false [] []; FBlock false [] []; FBlock false [] []; FBlock false [] []; FBlock false [] []; FBlock false [] []; FBlock false [] []; FBlock false [] []; FBlock false [] []; FBlock false [] []; FBlock false [] []; FBlock false [] []; FBlock false [] []; FBlock false [] []; FBlock false [] []; FBlock false [] []; FBlock false [] []; FBlock false [] []; FBlock false [] []; FBlock false [] []; FBlock false [] []; FBlock false [] []; FBlock false [] []; FBlock false [] []; FBlock false [] []; FBlock false [] []; FBlock false [] []; FBlock false [] []; FBlock false [] []; FBlock false [] []; FBlock false [] []; FBasic (BGet 5); FBrTable [1; 2; 3; 4; 5; 6; 7; 8; 9; 10; 11; 12; 13; 14; 15; 16; 17; 18; 19; 20; 21; 22; 23; 24; 25; 26; 27; 28; 29; 30; 31; 32; 33; 34; 35; 36; 37; 38; 39; 40; 41; 42; 43; 44; 45; 46; 47; 48; 49; 50; 51; 52; 53; 54; 55; 56; 57; 58; 59; 60; 61; 62; 63; 64; 65; 66; 67; 68; 69; 70; 71; 72; 73; 74; 75; 76; 77] 0; FEnd; FCall 23; FUnreachable; FEnd; FBasic (BConst (VI32 1048899%Z)); FBasic (BSet 7); FBasic (BGet 4); FBasic (BGet 7); FBasic (BOp (SStore SI32 8%Z)); FBasic (BConst (VI32 7%Z)); FBasic (BSet 8); FBasic (BGet 4); FBasic (BGet 8); FBasic (BOp (SStore SI32 12%Z)); FBr 76; FEnd; FBasic (BConst (VI32 1048906%Z)); FBasic (BSet 9); FBasic (BGet 4); FBasic (BGet 9); FBasic (BOp (SStore SI32 8%Z)); FBasic (BConst (VI32 4%Z)); FBasic (BSet 10); FBasic (BGet 4); FBasic (BGet 10); FBasic (BOp (SStore SI32 12%Z)); FBr 75; FEnd; FBasic (BConst (VI32 1048910%Z)); FBasic (BSet 11); FBasic (BGet 4); FBasic (BGet 11); FBasic (BOp (SStore SI32 8%Z)); FBasic (BConst (VI32 5%Z)); FBasic (BSet 12); FBasic (BGet 4); FBasic (BGet 12); FBasic (BOp (SStore SI32 12%Z)); FBr 74; FEnd; FBasic (BConst (VI32 1048915%Z)); FBasic (BSet 13); FBasic (BGet 4); FBasic (BGet 13); FBasic (BOp (SStore SI32 8%Z)); FBasic (BConst (VI32 9%Z)); FBasic (BSet 14); FBasic (BGet 4); FBasic (BGet 14); FBasic (BOp (SStore SI32 12%Z)); FBr 73; FEnd; FBasic (BConst (VI32 1048924%Z)); FBasic (BSet 15); FBasic (BGet 4); FBasic (BGet 15); FBasic (BOp (SStore SI32 8%Z)); FBasic (BConst (VI32 12%Z)); FBasic (BSet 16); FBasic (BGet 4); FBasic (BGet 16); FBasic (BOp (SStore SI32 12%Z)); FBr 72; FEnd; FBasic (BConst (VI32 1048936%Z)); FBasic (BSet 17); FBasic (BGet 4); FBasic (BGet 17); FBasic (BOp (SStore SI32 8%Z)); FBasic (BConst (VI32 11%Z)); FBasic (BSet 18); FBasic (BGet 4); FBasic (BGet 18); FBasic (BOp (SStore SI32 12%Z)); FBr 71; FEnd; FBasic (BConst (VI32 1048947%Z)); FBasic (BSet 19); FBasic (BGet 4); FBasic (BGet 19); FBasic (BOp (SStore SI32 8%Z)); FBasic (BConst (VI32 5%Z)); FBasic (BSet 20); FBasic (BGet 4); FBasic (BGet 20); FBasic (BOp (SStore SI32 12%Z)); FBr 70; FEnd; FBasic (BConst (VI32 1048952%Z)); FBasic (BSet 21); FBasic (BGet 4); FBasic (BGet 21); FBasic (BOp (SStore SI32 8%Z)); FBasic (BConst (VI32 7%Z)); FBasic (BSet 22); FBasic (BGet 4); FBasic (BGet 22); FBasic (BOp (SStore SI32 12%Z)); FBr 69; FEnd; FBasic (BConst (VI32 1048959%Z)); FBasic (BSet 23); FBasic (BGet 4); FBasic (BGet 23); FBasic (BOp (SStore SI32 8%Z)); FBasic (BConst (VI32 4%Z)); FBasic (BSet 24); FBasic (BGet 4); FBasic (BGet 24); FBasic (BOp (SStore SI32 12%Z)); FBr 68; FEnd; FBasic (BConst (VI32 1048963%Z)); FBasic (BSet 25); FBasic (BGet 4); FBasic (BGet 25); FBasic (BOp (SStore SI32 8%Z)); FBasic (BConst (VI32 6%Z)); FBasic (BSet 26); FBasic (BGet 4); FBasic (BGet 26); FBasic (BOp (SStore SI32 12%Z)); FBr 67; FEnd; FBasic (BConst (VI32 1048969%Z)); FBasic (BSet 27); FBasic (BGet 4); FBasic (BGet 27); FBasic (BOp (SStore SI32 8%Z)); FBasic (BConst (VI32 4%Z)); FBasic (BSet 28); FBasic (BGet 4); FBasic (BGet 28); FBasic (BOp (SStore SI32 12%Z)); FBr 66; FEnd; FBasic (BConst (VI32 1048973%Z)); FBasic (BSet 29); FBasic (BGet 4); FBasic (BGet 29); FBasic (BOp (SStore SI32 8%Z)); FBasic (BConst (VI32 8%Z)); FBasic (BSet 30); FBasic (BGet 4); FBasic (BGet 30); FBasic (BOp (SStore SI32 12%Z)); FBr 65; FEnd; FBasic (BConst (VI32 1048981%Z)); FBasic (BSet 31); FBasic (BGet 4); FBasic (BGet 31); FBasic (BOp (SStore SI32 8%Z)); FBasic (BConst (VI32 5%Z)); FBasic (BSet 32); FBasic (BGet 4); FBasic (BGet 32); FBasic (BOp (SStore SI32 12%Z)); FBr 64; FEnd; FBasic (BConst (VI32 1048986%Z)); FBasic (BSet 33); FBasic (BGet 4); FBasic (BGet 33); FBasic (BOp (SStore SI32 8%Z)); FBasic (BConst (VI32 11%Z)); FBasic (BSet 34); FBasic (BGet 4); FBasic (BGet 34); FBasic (BOp (SStore SI32 12%Z)); FBr 63; FEnd; FBasic (BConst (VI32 1048997%Z)); FBasic (BSet 35); FBasic (BGet 4); FBasic (BGet 35); FBasic (BOp (SStore SI32 8%Z)); FBasic (BConst (VI32 11%Z)); FBasic (BSet 36); FBasic (BGet 4); FBasic (BGet 36); FBasic (BOp (SStore SI32 12%Z)); FBr 62; FEnd; FBasic (BConst (VI32 1049008%Z)); FBasic (BSet 37); FBasic (BGet 4); FBasic (BGet 37); FBasic (BOp (SStore SI32 8%Z)); FBasic (BConst (VI32 9%Z)); FBasic (BSet 38); FBasic (BGet 4); FBasic (BGet 38); FBasic (BOp (SStore SI32 12%Z)); FBr 61; FEnd; FBasic (BConst (VI32 1049017%Z)); FBasic (BSet 39); FBasic (BGet 4); FBasic (BGet 39); FBasic (BOp (SStore SI32 8%Z)); FBasic (BConst (VI32 6%Z)); FBasic (BSet 40); FBasic (BGet 4); FBasic (BGet 40); FBasic (BOp (SStore SI32 12%Z)); FBr 60; FEnd; FBasic (BConst (VI32 1049023%Z)); FBasic (BSet 41); FBasic (BGet 4); FBasic (BGet 41); FBasic (BOp (SStore SI32 8%Z)); FBasic (BConst (VI32 11%Z)); FBasic (BSet 42); FBasic (BGet 4); FBasic (BGet 42); FBasic (BOp (SStore SI32 12%Z)); FBr 59; FEnd; FBasic (BConst (VI32 1049034%Z)); FBasic (BSet 43); FBasic (BGet 4); FBasic (BGet 43); FBasic (BOp (SStore SI32 8%Z)); FBasic (BConst (VI32 3%Z)); FBasic (BSet 44); FBasic (BGet 4); FBasic (BGet 44); FBasic (BOp (SStore SI32 12%Z)); FBr 58; FEnd; FBasic (BConst (VI32 1049037%Z)); FBasic (BSet 45); FBasic (BGet 4); FBasic (BGet 45); FBasic (BOp (SStore SI32 8%Z)); FBasic (BConst (VI32 5%Z)); FBasic (BSet 46); FBasic (BGet 4); FBasic (BGet 46); FBasic (BOp (SStore SI32 12%Z)); FBr 57; FEnd; FBasic (BConst (VI32 1049042%Z)); FBasic (BSet 47); FBasic (BGet 4); FBasic (BGet 47); FBasic (BOp (SStore SI32 8%Z)); FBasic (BConst (VI32 5%Z)); FBasic (BSet 48); FBasic (BGet 4); FBasic (BGet 48); FBasic (BOp (SStore SI32 12%Z)); FBr 56; FEnd; FBasic (BConst (VI32 1049047%Z)); FBasic (BSet 49); FBasic (BGet 4); FBasic (BGet 49); FBasic (BOp (SStore SI32 8%Z)); FBasic (BConst (VI32 5%Z)); FBasic (BSet 50); FBasic (BGet 4); FBasic (BGet 50); FBasic (BOp (SStore SI32 12%Z)); FBr 55; FEnd; FBasic (BConst (VI32 1049052%Z)); FBasic (BSet 51); FBasic (BGet 4); FBasic (BGet 51); FBasic (BOp (SStore SI32 8%Z)); FBasic (BConst (VI32 4%Z)); FBasic (BSet 52); FBasic (BGet 4); FBasic (BGet 52); FBasic (BOp (SStore SI32 12%Z)); FBr 54; FEnd; FBasic (BConst (VI32 1049056%Z)); FBasic (BSet 53); FBasic (BGet 4); FBasic (BGet 53); FBasic (BOp (SStore SI32 8%Z)); FBasic (BConst (VI32 11%Z)); FBasic (BSet 54); FBasic (BGet 4); FBasic (BGet 54); FBasic (BOp (SStore SI32 12%Z)); FBr 53; FEnd; FBasic (BConst (VI32 1049067%Z)); FBasic (BSet 55); FBasic (BGet 4); FBasic (BGet 55); FBasic (BOp (SStore SI32 8%Z)); FBasic (BConst (VI32 4%Z)); FBasic (BSet 56); FBasic (BGet 4); FBasic (BGet 56); FBasic (BOp (SStore SI32 12%Z)); FBr 52; FEnd; FBasic (BConst (VI32 1049071%Z)); FBasic (BSet 57); FBasic (BGet 4); FBasic (BGet 57); FBasic (BOp (SStore SI32 8%Z)); FBasic (BConst (VI32 5%Z)); FBasic (BSet 58); FBasic (BGet 4); FBasic (BGet 58); FBasic (BOp (SStore SI32 12%Z)); FBr 51; FEnd; FBasic (BConst (VI32 1049076%Z)); FBasic (BSet 59); FBasic (BGet 4); FBasic (BGet 59); FBasic (BOp (SStore SI32 8%Z)); FBasic (BConst (VI32 10%Z)); FBasic (BSet 60); FBasic (BGet 4); FBasic (BGet 60); FBasic (BOp (SStore SI32 12%Z)); FBr 50; FEnd; FBasic (BConst (VI32 1049086%Z)); FBasic (BSet 61); FBasic (BGet 4); FBasic (BGet 61); FBasic (BOp (SStore SI32 8%Z)); FBasic (BConst (VI32 4%Z)); FBasic (BSet 62); FBasic (BGet 4); FBasic (BGet 62); FBasic (BOp (SStore SI32 12%Z)); FBr 49; FEnd; FBasic (BConst (VI32 1049090%Z)); FBasic (BSet 63); FBasic (BGet 4); FBasic (BGet 63); FBasic (BOp (SStore SI32 8%Z)); FBasic (BConst (VI32 5%Z)); FBasic (BSet 64); FBasic (BGet 4); FBasic (BGet 64); FBasic (BOp (SStore SI32 12%Z)); FBr 48; FEnd; FBasic (BConst (VI32 1049095%Z)); FBasic (BSet 65); FBasic (BGet 4); FBasic (BGet 65); FBasic (BOp (SStore SI32 8%Z)); FBasic (BConst (VI32 2%Z)); FBasic (BSet 66); FBasic (BGet 4); FBasic (BGet 66); FBasic (BOp (SStore SI32 12%Z)); FBr 47; FEnd; FBasic (BConst (VI32 1049097%Z)); FBasic (BSet 67); FBasic (BGet 4); FBasic (BGet 67); FBasic (BOp (SStore SI32 8%Z)); FBasic (BConst (VI32 6%Z)); FBasic (BSet 68); FBasic (BGet 4); FBasic (BGet 68); FBasic (BOp (SStore SI32 12%Z)); FBr 46; FEnd; FBasic (BConst (VI32 1049103%Z)); FBasic (BSet 69); FBasic (BGet 4); FBasic (BGet 69); FBasic (BOp (SStore SI32 8%Z)); FBasic (BConst (VI32 5%Z)); FBasic (BSet 70); FBasic (BGet 4); FBasic (BGet 70); FBasic (BOp (SStore SI32 12%Z)); FBr 45; FEnd; FBasic (BConst (VI32 1049108%Z)); FBasic (BSet 71); FBasic (BGet 4); FBasic (BGet 71); FBasic (BOp (SStore SI32 8%Z)); FBasic (BConst (VI32 4%Z)); FBasic (BSet 72); FBasic (BGet 4); FBasic (BGet 72); FBasic (BOp (SStore SI32 12%Z)); FBr 44; FEnd; FBasic (BConst (VI32 1049112%Z)); FBasic (BSet 73); FBasic (BGet 4); FBasic (BGet 73); FBasic (BOp (SStore SI32 8%Z)); FBasic (BConst (VI32 5%Z)); FBasic (BSet 74); FBasic (BGet 4); FBasic (BGet 74); FBasic (BOp (SStore SI32 12%Z)); FBr 43; FEnd; FBasic (BConst (VI32 1049117%Z)); FBasic (BSet 75); FBasic (BGet 4); FBasic (BGet 75); FBasic (BOp (SStore SI32 8%Z)); FBasic (BConst (VI32 5%Z)); FBasic (BSet 76); FBasic (BGet 4); FBasic (BGet 76); FBasic (BOp (SStore SI32 12%Z)); FBr 42; FEnd; FBasic (BConst (VI32 1049122%Z)); FBasic (BSet 77); FBasic (BGet 4); FBasic (BGet 77); FBasic (BOp (SStore SI32 8%Z)); FBasic (BConst (VI32 7%Z)); FBasic (BSet 78); FBasic (BGet 4); FBasic (BGet 78); FBasic (BOp (SStore SI32 12%Z)); FBr 41; FEnd; FBasic (BConst (VI32 1049129%Z)); FBasic (BSet 79); FBasic (BGet 4); FBasic (BGet 79); FBasic (BOp (SStore SI32 8%Z)); FBasic (BConst (VI32 8%Z)); FBasic (BSet 80); FBasic (BGet 4); FBasic (BGet 80); FBasic (BOp (SStore SI32 12%Z)); FBr 40; FEnd; FBasic (BConst (VI32 1049137%Z)); FBasic (BSet 81); FBasic (BGet 4); FBasic (BGet 81); FBasic (BOp (SStore SI32 8%Z)); FBasic (BConst (VI32 11%Z)); FBasic (BSet 82); FBasic (BGet 4); FBasic (BGet 82); FBasic (BOp (SStore SI32 12%Z)); FBr 39; FEnd; FBasic (BConst (VI32 1049148%Z)); FBasic (BSet 83); FBasic (BGet 4); FBasic (BGet 83); FBasic (BOp (SStore SI32 8%Z)); FBasic (BConst (VI32 7%Z)); FBasic (BSet 84); FBasic (BGet 4); FBasic (BGet 84); FBasic (BOp (SStore SI32 12%Z)); FBr 38; FEnd; FBasic (BConst (VI32 1049155%Z)); FBasic (BSet 85); FBasic (BGet 4); FBasic (BGet 85); FBasic (BOp (SStore SI32 8%Z)); FBasic (BConst (VI32 8%Z)); FBasic (BSet 86); FBasic (BGet 4); FBasic (BGet 86); FBasic (BOp (SStore SI32 12%Z)); FBr 37; FEnd; FBasic (BConst (VI32 1049163%Z)); FBasic (BSet 87); FBasic (BGet 4); FBasic (BGet 87); FBasic (BOp (SStore SI32 8%Z)); FBasic (BConst (VI32 10%Z)); FBasic (BSet 88); FBasic (BGet 4); FBasic (BGet 88); FBasic (BOp (SStore SI32 12%Z)); FBr 36; FEnd; FBasic (BConst (VI32 1049173%Z)); FBasic (BSet 89); FBasic (BGet 4); FBasic (BGet 89); FBasic (BOp (SStore SI32 8%Z)); FBasic (BConst (VI32 5%Z)); FBasic (BSet 90); FBasic (BGet 4); FBasic (BGet 90); FBasic (BOp (SStore SI32 12%Z)); FBr 35; FEnd; FBasic (BConst (VI32 1049178%Z)); FBasic (BSet 91); FBasic (BGet 4); FBasic (BGet 91); FBasic (BOp (SStore SI32 8%Z)); FBasic (BConst (VI32 6%Z)); FBasic (BSet 92); FBasic (BGet 4); FBasic (BGet 92); FBasic (BOp (SStore SI32 12%Z)); FBr 34; FEnd; FBasic (BConst (VI32 1049184%Z)); FBasic (BSet 93); FBasic (BGet 4); FBasic (BGet 93); FBasic (BOp (SStore SI32 8%Z)); FBasic (BConst (VI32 5%Z)); FBasic (BSet 94); FBasic (BGet 4); FBasic (BGet 94); FBasic (BOp (SStore SI32 12%Z)); FBr 33; FEnd; FBasic (BConst (VI32 1049189%Z)); FBasic (BSet 95); FBasic (BGet 4); FBasic (BGet 95); FBasic (BOp (SStore SI32 8%Z)); FBasic (BConst (VI32 5%Z)); FBasic (BSet 96); FBasic (BGet 4); FBasic (BGet 96); FBasic (BOp (SStore SI32 12%Z)); FBr 32; FEnd; FBasic (BConst (VI32 1049194%Z)); FBasic (BSet 97); FBasic (BGet 4); FBasic (BGet 97); FBasic (BOp (SStore SI32 8%Z)); FBasic (BConst (VI32 6%Z)); FBasic (BSet 98); FBasic (BGet 4); FBasic (BGet 98); FBasic (BOp (SStore SI32 12%Z)); FBr 31; FEnd; FBasic (BConst (VI32 1049200%Z)); FBasic (BSet 99); FBasic (BGet 4); FBasic (BGet 99); FBasic (BOp (SStore SI32 8%Z)); FBasic (BConst (VI32 5%Z)); FBasic (BSet 100); FBasic (BGet 4); FBasic (BGet 100); FBasic (BOp (SStore SI32 12%Z)); FBr 30; FEnd; FBasic (BConst (VI32 1049205%Z)); FBasic (BSet 101); FBasic (BGet 4); FBasic (BGet 101); FBasic (BOp (SStore SI32 8%Z)); FBasic (BConst (VI32 6%Z)); FBasic (BSet 102); FBasic (BGet 4); FBasic (BGet 102); FBasic (BOp (SStore SI32 12%Z)); FBr 29; FEnd; FBasic (BConst (VI32 1049211%Z)); FBasic (BSet 103); FBasic (BGet 4); FBasic (BGet 103); FBasic (BOp (SStore SI32 8%Z)); FBasic (BConst (VI32 5%Z)); FBasic (BSet 104); FBasic (BGet 4); FBasic (BGet 104); FBasic (BOp (SStore SI32 12%Z)); FBr 28; FEnd; FBasic (BConst (VI32 1049216%Z)); FBasic (BSet 105); FBasic (BGet 4); FBasic (BGet 105); FBasic (BOp (SStore SI32 8%Z)); FBasic (BConst (VI32 5%Z)); FBasic (BSet 106); FBasic (BGet 4); FBasic (BGet 106); FBasic (BOp (SStore SI32 12%Z)); FBr 27; FEnd; FBasic (BConst (VI32 1049221%Z)); FBasic (BSet 107); FBasic (BGet 4); FBasic (BGet 107); FBasic (BOp (SStore SI32 8%Z)); FBasic (BConst (VI32 10%Z)); FBasic (BSet 108); FBasic (BGet 4); FBasic (BGet 108); FBasic (BOp (SStore SI32 12%Z)); FBr 26; FEnd; FBasic (BConst (VI32 1049231%Z)); FBasic (BSet 109); FBasic (BGet 4); FBasic (BGet 109); FBasic (BOp (SStore SI32 8%Z)); FBasic (BConst (VI32 5%Z)); FBasic (BSet 110); FBasic (BGet 4); FBasic (BGet 110); FBasic (BOp (SStore SI32 12%Z)); FBr 25; FEnd; FBasic (BConst (VI32 1049236%Z)); FBasic (BSet 111); FBasic (BGet 4); FBasic (BGet 111); FBasic (BOp (SStore SI32 8%Z)); FBasic (BConst (VI32 5%Z)); FBasic (BSet 112); FBasic (BGet 4); FBasic (BGet 112); FBasic (BOp (SStore SI32 12%Z)); FBr 24; FEnd; FBasic (BConst (VI32 1049241%Z)); FBasic (BSet 113); FBasic (BGet 4); FBasic (BGet 113); FBasic (BOp (SStore SI32 8%Z)); FBasic (BConst (VI32 7%Z)); FBasic (BSet 114); FBasic (BGet 4); FBasic (BGet 114); FBasic (BOp (SStore SI32 12%Z)); FBr 23; FEnd; FBasic (BConst (VI32 1049248%Z)); FBasic (BSet 115); FBasic (BGet 4); FBasic (BGet 115); FBasic (BOp (SStore SI32 8%Z)); FBasic (BConst (VI32 6%Z)); FBasic (BSet 116); FBasic (BGet 4); FBasic (BGet 116); FBasic (BOp (SStore SI32 12%Z)); FBr 22; FEnd; FBasic (BConst (VI32 1049254%Z)); FBasic (BSet 117); FBasic (BGet 4); FBasic (BGet 117); FBasic (BOp (SStore SI32 8%Z)); FBasic (BConst (VI32 8%Z)); FBasic (BSet 118); FBasic (BGet 4); FBasic (BGet 118); FBasic (BOp (SStore SI32 12%Z)); FBr 21; FEnd; FBasic (BConst (VI32 1049262%Z)); FBasic (BSet 119); FBasic (BGet 4); FBasic (BGet 119); FBasic (BOp (SStore SI32 8%Z)); FBasic (BConst (VI32 14%Z)); FBasic (BSet 120); FBasic (BGet 4); FBasic (BGet 120); FBasic (BOp (SStore SI32 12%Z)); FBr 20; FEnd; FBasic (BConst (VI32 1049276%Z)); FBasic (BSet 121); FBasic (BGet 4); FBasic (BGet 121); FBasic (BOp (SStore SI32 8%Z)); FBasic (BConst (VI32 7%Z)); FBasic (BSet 122); FBasic (BGet 4); FBasic (BGet 122); FBasic (BOp (SStore SI32 12%Z)); FBr 19; FEnd; FBasic (BConst (VI32 1049283%Z)); FBasic (BSet 123); FBasic (BGet 4); FBasic (BGet 123); FBasic (BOp (SStore SI32 8%Z)); FBasic (BConst (VI32 6%Z)); FBasic (BSet 124); FBasic (BGet 4); FBasic (BGet 124); FBasic (BOp (SStore SI32 12%Z)); FBr 18; FEnd; FBasic (BConst (VI32 1049289%Z)); FBasic (BSet 125); FBasic (BGet 4); FBasic (BGet 125); FBasic (BOp (SStore SI32 8%Z)); FBasic (BConst (VI32 5%Z)); FBasic (BSet 126); FBasic (BGet 4); FBasic (BGet 126); FBasic (BOp (SStore SI32 12%Z)); FBr 17; FEnd; FBasic (BConst (VI32 1049294%Z)); FBasic (BSet 127); FBasic (BGet 4); FBasic (BGet 127); FBasic (BOp (SStore SI32 8%Z)); FBasic (BConst (VI32 4%Z)); FBasic (BSet 128); FBasic (BGet 4); FBasic (BGet 128); FBasic (BOp (SStore SI32 12%Z)); FBr 16; FEnd; FBasic (BConst (VI32 1049298%Z)); FBasic (BSet 129); FBasic (BGet 4); FBasic (BGet 129); FBasic (BOp (SStore SI32 8%Z)); FBasic (BConst (VI32 8%Z)); FBasic (BSet 130); FBasic (BGet 4); FBasic (BGet 130); FBasic (BOp (SStore SI32 12%Z)); FBr 15; FEnd; FBasic (BConst (VI32 1049306%Z)); FBasic (BSet 131); FBasic (BGet 4); FBasic (BGet 131); FBasic (BOp (SStore SI32 8%Z)); FBasic (BConst (VI32 9%Z)); FBasic (BSet 132); FBasic (BGet 4); FBasic (BGet 132); FBasic (BOp (SStore SI32 12%Z)); FBr 14; FEnd; FBasic (BConst (VI32 1049315%Z)); FBasic (BSet 133); FBasic (BGet 4); FBasic (BGet 133); FBasic (BOp (SStore SI32 8%Z)); FBasic (BConst (VI32 4%Z)); FBasic (BSet 134); FBasic (BGet 4); FBasic (BGet 134); FBasic (BOp (SStore SI32 12%Z)); FBr 13; FEnd; FBasic (BConst (VI32 1049319%Z)); FBasic (BSet 135); FBasic (BGet 4); FBasic (BGet 135); FBasic (BOp (SStore SI32 8%Z)); FBasic (BConst (VI32 4%Z)); FBasic (BSet 136); FBasic (BGet 4); FBasic (BGet 136); FBasic (BOp (SStore SI32 12%Z)); FBr 12; FEnd; FBasic (BConst (VI32 1049323%Z)); FBasic (BSet 137); FBasic (BGet 4); FBasic (BGet 137); FBasic (BOp (SStore SI32 8%Z)); FBasic (BConst (VI32 5%Z)); FBasic (BSet 138); FBasic (BGet 4); FBasic (BGet 138); FBasic (BOp (SStore SI32 12%Z)); FBr 11; FEnd; FBasic (BConst (VI32 1049328%Z)); FBasic (BSet 139); FBasic (BGet 4); FBasic (BGet 139); FBasic (BOp (SStore SI32 8%Z)); FBasic (BConst (VI32 14%Z)); FBasic (BSet 140); FBasic (BGet 4); FBasic (BGet 140); FBasic (BOp (SStore SI32 12%Z)); FBr 10; FEnd; FBasic (BConst (VI32 1049342%Z)); FBasic (BSet 141); FBasic (BGet 4); FBasic (BGet 141); FBasic (BOp (SStore SI32 8%Z)); FBasic (BConst (VI32 9%Z)); FBasic (BSet 142); FBasic (BGet 4); FBasic (BGet 142); FBasic (BOp (SStore SI32 12%Z)); FBr 9; FEnd; FBasic (BConst (VI32 1049351%Z)); FBasic (BSet 143); FBasic (BGet 4); FBasic (BGet 143); FBasic (BOp (SStore SI32 8%Z)); FBasic (BConst (VI32 5%Z)); FBasic (BSet 144); FBasic (BGet 4); FBasic (BGet 144); FBasic (BOp (SStore SI32 12%Z)); FBr 8; FEnd; FBasic (BConst (VI32 1049356%Z)); FBasic (BSet 145); FBasic (BGet 4); FBasic (BGet 145); FBasic (BOp (SStore SI32 8%Z)); FBasic (BConst (VI32 4%Z)); FBasic (BSet 146); FBasic (BGet 4); FBasic (BGet 146); FBasic (BOp (SStore SI32 12%Z)); FBr 7; FEnd; FBasic (BConst (VI32 1049360%Z)); FBasic (BSet 147); FBasic (BGet 4); FBasic (BGet 147); FBasic (BOp (SStore SI32 8%Z)); FBasic (BConst (VI32 5%Z)); FBasic (BSet 148); FBasic (BGet 4); FBasic (BGet 148); FBasic (BOp (SStore SI32 12%Z)); FBr 6; FEnd; FBasic (BConst (VI32 1049365%Z)); FBasic (BSet 149); FBasic (BGet 4); FBasic (BGet 149); FBasic (BOp (SStore SI32 8%Z)); FBasic (BConst (VI32 4%Z)); FBasic (BSet 150); FBasic (BGet 4); FBasic (BGet 150); FBasic (BOp (SStore SI32 12%Z)); FBr 5; FEnd; FBasic (BConst (VI32 1049369%Z)); FBasic (BSet 151); FBasic (BGet 4); FBasic (BGet 151); FBasic (BOp (SStore SI32 8%Z)); FBasic (BConst (VI32 5%Z)); FBasic (BSet 152); FBasic (BGet 4); FBasic (BGet 152); FBasic (BOp (SStore SI32 12%Z)); FBr 4; FEnd; FBasic (BConst (VI32 1049374%Z)); FBasic (BSet 153); FBasic (BGet 4); FBasic (BGet 153); FBasic (BOp (SStore SI32 8%Z)); FBasic (BConst (VI32 8%Z)); FBasic (BSet 154); FBasic (BGet 4); FBasic (BGet 154); FBasic (BOp (SStore SI32 12%Z)); FBr 3; FEnd; FBasic (BConst (VI32 1049382%Z)); FBasic (BSet 155); FBasic (BGet 4); FBasic (BGet 155); FBasic (BOp (SStore SI32 8%Z)); FBasic (BConst (VI32 6%Z)); FBasic (BSet 156); FBasic (BGet 4); FBasic (BGet 156); FBasic (BOp (SStore SI32 12%Z)); FBr 2; FEnd; FBasic (BConst (VI32 1049388%Z)); FBasic (BSet 157); FBasic (BGet 4); FBasic (BGet 157); FBasic (BOp (SStore SI32 8%Z)); FBasic (BConst (VI32 4%Z)); FBasic (BSet 158); FBasic (BGet 4); FBasic (BGet 158); FBasic (BOp (SStore SI32 12%Z)); FBr 1; FEnd; FBasic (BConst (VI32 1049392%Z)); FBasic (BSet 159); FBasic (BGet 4); FBasic (BGet 159); FBasic (BOp (SStore SI32 8%Z)); FBasic (BConst (VI32 10%Z)); FBasic (BSet 160); FBasic (BGet 4); FBasic (BGet 160); FBasic (BOp (SStore SI32 12%Z)); FEnd; FBasic (BGet 4); FBasic (BOp (SLoad LI32 8%Z)); FBasic (BSet 161); FBasic (BGet 4); FBasic (BOp (SLoad LI32 12%Z)); FBasic (BSet 162); FBasic (BGet 0); FBasic (BGet 162); FBasic (BOp (SStore SI32 4%Z)); FBasic (BGet 0); FBasic (BGet 161); FBasic (BOp (SStore SI32 0%Z)); FBasic (BConst (VI32 16%Z)); FBasic (BSet 163); FBasic (BGet 4); FBasic (BGet 163); FBasic (BOp (SNum2 (B_int W32 Iadd))); FBasic (BSet 164); FBasic (BGet 164); FBasic (BOp (SGlobalSet TI32 0)); FReturn; FEnd]; b_bad := false |};
    PCode {| b_locals := [TI32; TI32; TI32; TI32; TI32; TI32; TI32; TI32; TI32; TI32; TI32; TI32; TI32; TI32; TI32; TI32; TI32; TI32; TI32; TI32; TI32; TI32; TI32; TI32; TI32; TI32; TI32; TI32; TI32; TI32; TI32; TI32; TI32; TI32; TI32; TI32; TI32; TI32; TI32; TI32; TI32; TI32; TI32; TI32; TI32; TI32; TI32; TI32; TI32; TI32; TI32; TI32; TI32; TI32; TI32; TI32; TI32; TI32; TI32; TI32; TI32; TI32; TI32; TI32; TI32; TI32; TI32; TI32; TI32; TI32; TI32; TI32; TI32; TI32; TI32; TI32; TI32; TI32; TI32; TI32; TI32; TI32; TI32; TI32; TI32; TI32; TI32; TI32; TI32; TI32; TI32; TI32; TI32; TI32; TI32; TI32; TI32; TI32; TI32; TI32; TI32; TI32; TI32; TI32; TI32; TI32; TI32; TI32; TI32; TI32; TI32; TI32; TI32; TI32; TI32; TI32; TI32; TI32; TI32; TI32; TI32; TI32; TI32; TI32; TI32; TI32; TI32; TI32; TI32; TI32; TI32; TI32; TI32; TI32; TI32; TI32; TI32; TI32; TI32; TI32; TI32; TI32; TI32; TI32; TI32; TI32; TI32; TI32; TI32; TI32; TI32; TI32; TI32; TI32; TI32; TI32; TI32; TI32; TI32; TI32; TI32; TI32; TI32]; b_badlocals := false; b_ops := [FBasic (BOp (SGlobalGet TI32 0)); FBasic (BSet 2); FBasic (BConst (VI32 16%Z)); FBasic (BSet 3); FBasic (BGet 2); FBasic (BGet 3); FBasic (BOp (SNum2 (B_int W32 Isub))); FBasic (BSet 4); FBasic (BGet 4); FBasic (BOp (SGlobalSet TI32 0)); FBasic (BGet 1); FBasic (BOp (SLoad LI32_16u 0%Z)); FBasic (BSet 5); FBasic (BConst (VI32 76%Z)); FBasic (BSet 6); FBasic (BGet 5); FBasic (BGet 6); FBasic (BOp (SNum2 (B_irel W32 Igt_u))); FBasic BDrop; FBlock false [] []; FBlock false [] []; FBlock false [] []; FBlock false [] []; FBlock false [] []; FBlock false [] []; FBlock false [] []; FBlock false [] []; FBlock false [] []; FBlock false [] []; FBlock false [] []; FBlock false [] []; FBlock false [] []; FBlock false [] []; FBlock false [] []; FBlock false [] []; FBlock false [] []; FBlock false [] []; FBlock false [] []; FBlock false [] []; FBlock false [] []; FBlock false [] []; FBlock false [] []; FBlock false [] []; FBlock false [] []; FBlock false [] []; FBlock false [] []; FBlock false [] []; FBlock false [] []; FBlock false [] []; FBlock false [] []; FBlock false [] []; FBlock false [] []; FBlock false [] []; FBlock false [] []; FBlock false [] []; FBlock false [] []; FBlock false [] []; FBlock false [] []; FBlock false [] []; FBlock false [] []; FBlock false [] []; FBlock false [] []; FBlock false [] []; FBlock false [] []; FBlock false [] []; FBlock false [] []; FBlock false [] []; FBlock false [] []; FBlock false [] []; FBlock false [] []; FBlock false [] []; FBlock false [] []; FBlock false [] []; FBlock false [] []; FBlock false [] []; FBlock false [] []; FBlock false [] []; FBlock false [] []; FBlock false [] []; FBlock false [] []; FBlock false [] []; FBlock false [] []; FBlock false [] []; FBlock false [] []; FBlock false [] []; FBlock false [] []; FBlock false [] []; FBlock false [] []; FBlock false [] []; FBlock false [] []; FBlock false [] []; FBlock false [] []; FBlock false [] []; FBlock false [] []; FBlock false [] []; FBlock false [] []; FBlock false [] []; FBlock false [] []; FBasic (BGet 5); FBrTable [1; 2; 3; 4; 5; 6; 7; 8; 9; 10; 11; 12; 13; 14; 15; 16; 17; 18; 19; 20; 21; 22; 23; 24; 25; 26; 27; 28; 29; 30; 31; 32; 33; 34; 35; 36; 37; 38; 39; 40; 41; 42; 43; 44; 45; 46; 47; 48; 49; 50; 51; 52; 53; 54; 55; 56; 57; 58; 59; 60; 61; 62; 63; 64; 65; 66; 67; 68; 69; 70; 71; 72; 73; 74; 75; 76; 77] 0; FEnd; FCall 23; FUnreachable; FEnd; FBasic (BConst (VI32 1049402%Z)); FBasic (BSet 7); FBasic (BGet 4); FBasic (BGet 7); FBasic (BOp (SStore SI32 8%Z)); FBasic (BConst (VI32 54%Z)); FBasic (BSet 8); FBasic (BGet 4); FBasic (BGet 8); FBasic (BOp (SStore SI32 12%Z)); FBr 76; FEnd; FBasic (BConst (VI32 1049456%Z)); FBasic (BSet 9); FBasic (BGet 4); FBasic (BGet 9); FBasic (BOp (SStore SI32 8%Z)); FBasic (BConst (VI32 23%Z)); FBasic (BSet 10); FBasic (BGet 4); FBasic (BGet 10); FBasic (BOp (SStore SI32 12%Z)); FBr 75; FEnd; FBasic (BConst (VI32 1049479%Z)); FBasic (BSet 11); FBasic (BGet 4); FBasic (BGet 11); FBasic (BOp (SStore SI32 8%Z)); FBasic (BConst (VI32 18%Z)); FBasic (BSet 12); FBasic (BGet 4); FBasic (BGet 12); FBasic (BOp (SStore SI32 12%Z)); FBr 74; FEnd; FBasic (BConst (VI32 1049497%Z)); FBasic (BSet 13); FBasic (BGet 4); FBasic (BGet 13); FBasic (BOp (SStore SI32 8%Z)); FBasic (BConst (VI32 15%Z)); FBasic (BSet 14); FBasic (BGet 4); FBasic (BGet 14); FBasic (BOp (SStore SI32 12%Z)); FBr 73; FEnd; FBasic (BConst (VI32 1049512%Z)); FBasic (BSet 15); FBasic (BGet 4); FBasic (BGet 15); FBasic (BOp (SStore SI32 8%Z)); FBasic (BConst (VI32 22%Z)); FBasic (BSet 16); FBasic (BGet 4); FBasic (BGet 16); FBasic (BOp (SStore SI32 12%Z)); FBr 72; FEnd; FBasic (BConst (VI32 1049534%Z)); FBasic (BSet 17); FBasic (BGet 4); FBasic (BGet 17); FBasic (BOp (SStore SI32 8%Z)); FBasic (BConst (VI32 29%Z)); FBasic (BSet 18); FBasic (BGet 4); FBasic (BGet 18); FBasic (BOp (SStore SI32 12%Z)); FBr 71; FEnd; FBasic (BConst (VI32 1049563%Z)); FBasic (BSet 19); FBasic (BGet 4); FBasic (BGet 19); FBasic (BOp (SStore SI32 8%Z)); FBasic (BConst (VI32 47%Z)); FBasic (BSet 20); FBasic (BGet 4); FBasic (BGet 20); FBasic (BOp (SStore SI32 12%Z)); FBr 70; FEnd; FBasic (BConst (VI32 1049610%Z)); FBasic (BSet 21); FBasic (BGet 4); FBasic (BGet 21); FBasic (BOp (SStore SI32 8%Z)); FBasic (BConst (VI32 31%Z)); FBasic (BSet 22); FBasic (BGet 4); FBasic (BGet 22); FBasic (BOp (SStore SI32 12%Z)); FBr 69; FEnd; FBasic (BConst (VI32 1049641%Z)); FBasic (BSet 23); FBasic (BGet 4); FBasic (BGet 23); FBasic (BOp (SStore SI32 8%Z)); FBasic (BConst (VI32 20%Z)); FBasic (BSet 24); FBasic (BGet 4); FBasic (BGet 24); FBasic (BOp (SStore SI32 12%Z)); FBr 68; FEnd; FBasic (BConst (VI32 1049661%Z)); FBasic (BSet 25); FBasic (BGet 4); FBasic (BGet 25); FBasic (BOp (SStore SI32 8%Z)); FBasic (BConst (VI32 12%Z)); FBasic (BSet 26); FBasic (BGet 4); FBasic (BGet 26); FBasic (BOp (SStore SI32 12%Z)); FBr 67; FEnd; FBasic (BConst (VI32 1049673%Z)); FBasic (BSet 27); FBasic (BGet 4); FBasic (BGet 27); FBasic (BOp (SStore SI32 8%Z)); FBasic (BConst (VI32 24%Z)); FBasic (BSet 28); FBasic (BGet 4); FBasic (BGet 28); FBasic (BOp (SStore SI32 12%Z)); FBr 66; FEnd; FBasic (BConst (VI32 1049697%Z)); FBasic (BSet 29); FBasic (BGet 4); FBasic (BGet 29); FBasic (BOp (SStore SI32 8%Z)); FBasic (BConst (VI32 19%Z)); FBasic (BSet 30); FBasic (BGet 4); FBasic (BGet 30); FBasic (BOp (SStore SI32 12%Z)); FBr 65; FEnd; FBasic (BConst (VI32 1049716%Z)); FBasic (BSet 31); FBasic (BGet 4); FBasic (BGet 31); FBasic (BOp (SStore SI32 8%Z)); FBasic (BConst (VI32 19%Z)); FBasic (BSet 32); FBasic (BGet 4); FBasic (BGet 32); FBasic (BOp (SStore SI32 12%Z)); FBr 64; FEnd; FBasic (BConst (VI32 1049735%Z)); FBasic (BSet 33); FBasic (BGet 4); FBasic (BGet 33); FBasic (BOp (SStore SI32 8%Z)); FBasic (BConst (VI32 19%Z)); FBasic (BSet 34); FBasic (BGet 4); FBasic (BGet 34); FBasic (BOp (SStore SI32 12%Z)); FBr 63; FEnd; FBasic (BConst (VI32 1049754%Z)); FBasic (BSet 35); FBasic (BGet 4); FBasic (BGet 35); FBasic (BOp (SStore SI32 8%Z)); FBasic (BConst (VI32 19%Z)); FBasic (BSet 36); FBasic (BGet 4); FBasic (BGet 36); FBasic (BOp (SStore SI32 12%Z)); FBr 62; FEnd; FBasic (BConst (VI32 1049773%Z)); FBasic (BSet 37); FBasic (BGet 4); FBasic (BGet 37); FBasic (BOp (SStore SI32 8%Z)); FBasic (BConst (VI32 17%Z)); FBasic (BSet 38); FBasic (BGet 4); FBasic (BGet 38); FBasic (BOp (SStore SI32 12%Z)); FBr 61; FEnd; FBasic (BConst (VI32 1049790%Z)); FBasic (BSet 39); FBasic (BGet 4); FBasic (BGet 39); FBasic (BOp (SStore SI32 8%Z)); FBasic (BConst (VI32 30%Z)); FBasic (BSet 40); FBasic (BGet 4); FBasic (BGet 40); FBasic (BOp (SStore SI32 12%Z)); FBr 60; FEnd; FBasic (BConst (VI32 1049820%Z)); FBasic (BSet 41); FBasic (BGet 4); FBasic (BGet 41); FBasic (BOp (SStore SI32 8%Z)); FBasic (BConst (VI32 29%Z)); FBasic (BSet 42); FBasic (BGet 4); FBasic (BGet 42); FBasic (BOp (SStore SI32 12%Z)); FBr 59; FEnd; FBasic (BConst (VI32 1049849%Z)); FBasic (BSet 43); FBasic (BGet 4); FBasic (BGet 43); FBasic (BOp (SStore SI32 8%Z)); FBasic (BConst (VI32 47%Z)); FBasic (BSet 44); FBasic (BGet 4); FBasic (BGet 44); FBasic (BOp (SStore SI32 12%Z)); FBr 58; FEnd; FBasic (BConst (VI32 1049896%Z)); FBasic (BSet 45); FBasic (BGet 4); FBasic (BGet 45); FBasic (BOp (SStore SI32 8%Z)); FBasic (BConst (VI32 9%Z)); FBasic (BSet 46); FBasic (BGet 4); FBasic (BGet 46); FBasic (BOp (SStore SI32 12%Z)); FBr 57; FEnd; FBasic (BConst (VI32 1049905%Z)); FBasic (BSet 47); FBasic (BGet 4); FBasic (BGet 47); FBasic (BOp (SStore SI32 8%Z)); FBasic (BConst (VI32 12%Z)); FBasic (BSet 48); FBasic (BGet 4); FBasic (BGet 48); FBasic (BOp (SStore SI32 12%Z)); FBr 56; FEnd; FBasic (BConst (VI32 1049917%Z)); FBasic (BSet 49); FBasic (BGet 4); FBasic (BGet 49); FBasic (BOp (SStore SI32 8%Z)); FBasic (BConst (VI32 12%Z)); FBasic (BSet 50); FBasic (BGet 4); FBasic (BGet 50); FBasic (BOp (SStore SI32 12%Z)); FBr 55; FEnd; FBasic (BConst (VI32 1049929%Z)); FBasic (BSet 51); FBasic (BGet 4); FBasic (BGet 51); FBasic (BOp (SStore SI32 8%Z)); FBasic (BConst (VI32 15%Z)); FBasic (BSet 52); FBasic (BGet 4); FBasic (BGet 52); FBasic (BOp (SStore SI32 12%Z)); FBr 54; FEnd; FBasic (BConst (VI32 1049944%Z)); FBasic (BSet 53); FBasic (BGet 4); FBasic (BGet 53); FBasic (BOp (SStore SI32 8%Z)); FBasic (BConst (VI32 20%Z)); FBasic (BSet 54); FBasic (BGet 4); FBasic (BGet 54); FBasic (BOp (SStore SI32 12%Z)); FBr 53; FEnd; FBasic (BConst (VI32 1049964%Z)); FBasic (BSet 55); FBasic (BGet 4); FBasic (BGet 55); FBasic (BOp (SStore SI32 8%Z)); FBasic (BConst (VI32 19%Z)); FBasic (BSet 56); FBasic (BGet 4); FBasic (BGet 56); FBasic (BOp (SStore SI32 12%Z)); FBr 52; FEnd; FBasic (BConst (VI32 1049983%Z)); FBasic (BSet 57); FBasic (BGet 4); FBasic (BGet 57); FBasic (BOp (SStore SI32 8%Z)); FBasic (BConst (VI32 22%Z)); FBasic (BSet 58); FBasic (BGet 4); FBasic (BGet 58); FBasic (BOp (SStore SI32 12%Z)); FBr 51; FEnd; FBasic (BConst (VI32 1050005%Z)); FBasic (BSet 59); FBasic (BGet 4); FBasic (BGet 59); FBasic (BOp (SStore SI32 8%Z)); FBasic (BConst (VI32 22%Z)); FBasic (BSet 60); FBasic (BGet 4); FBasic (BGet 60); FBasic (BOp (SStore SI32 12%Z)); FBr 50; FEnd; FBasic (BConst (VI32 1050027%Z)); FBasic (BSet 61); FBasic (BGet 4); FBasic (BGet 61); FBasic (BOp (SStore SI32 8%Z)); FBasic (BConst (VI32 21%Z)); FBasic (BSet 62); FBasic (BGet 4); FBasic (BGet 62); FBasic (BOp (SStore SI32 12%Z)); FBr 49; FEnd; FBasic (BConst (VI32 1050048%Z)); FBasic (BSet 63); FBasic (BGet 4); FBasic (BGet 63); FBasic (BOp (SStore SI32 8%Z)); FBasic (BConst (VI32 17%Z)); FBasic (BSet 64); FBasic (BGet 4); FBasic (BGet 64); FBasic (BOp (SStore SI32 12%Z)); FBr 48; FEnd; FBasic (BConst (VI32 1050065%Z)); FBasic (BSet 65); FBasic (BGet 4); FBasic (BGet 65); FBasic (BOp (SStore SI32 8%Z)); FBasic (BConst (VI32 10%Z)); FBasic (BSet 66); FBasic (BGet 4); FBasic (BGet 66); FBasic (BOp (SStore SI32 12%Z)); FBr 47; FEnd; FBasic (BConst (VI32 1050075%Z)); FBasic (BSet 67); FBasic (BGet 4); FBasic (BGet 67); FBasic (BOp (SStore SI32 8%Z)); FBasic (BConst (VI32 20%Z)); FBasic (BSet 68); FBasic (BGet 4); FBasic (BGet 68); FBasic (BOp (SStore SI32 12%Z)); FBr 46; FEnd; FBasic (BConst (VI32 1050095%Z)); FBasic (BSet 69); FBasic (BGet 4); FBasic (BGet 69); FBasic (BOp (SStore SI32 8%Z)); FBasic (BConst (VI32 15%Z)); FBasic (BSet 70); FBasic (BGet 4); FBasic (BGet 70); FBasic (BOp (SStore SI32 12%Z)); FBr 45; FEnd; FBasic (BConst (VI32 1050110%Z)); FBasic (BSet 71); FBasic (BGet 4); FBasic (BGet 71); FBasic (BOp (SStore SI32 8%Z)); FBasic (BConst (VI32 34%Z)); FBasic (BSet 72); FBasic (BGet 4); FBasic (BGet 72); FBasic (BOp (SStore SI32 12%Z)); FBr 44; FEnd; FBasic (BConst (VI32 1050144%Z)); FBasic (BSet 73); FBasic (BGet 4); FBasic (BGet 73); FBasic (BOp (SStore SI32 8%Z)); FBasic (BConst (VI32 32%Z)); FBasic (BSet 74); FBasic (BGet 4); FBasic (BGet 74); FBasic (BOp (SStore SI32 12%Z)); FBr 43; FEnd; FBasic (BConst (VI32 1050176%Z)); FBasic (BSet 75); FBasic (BGet 4); FBasic (BGet 75); FBasic (BOp (SStore SI32 8%Z)); FBasic (BConst (VI32 15%Z)); FBasic (BSet 76); FBasic (BGet 4); FBasic (BGet 76); FBasic (BOp (SStore SI32 12%Z)); FBr 42; FEnd; FBasic (BConst (VI32 1050191%Z)); FBasic (BSet 77); FBasic (BGet 4); FBasic (BGet 77); FBasic (BOp (SStore SI32 8%Z)); FBasic (BConst (VI32 18%Z)); FBasic (BSet 78); FBasic (BGet 4); FBasic (BGet 78); FBasic (BOp (SStore SI32 12%Z)); FBr 41; FEnd; FBasic (BConst (VI32 1049896%Z)); FBasic (BSet 79); FBasic (BGet 4); FBasic (BGet 79); FBasic (BOp (SStore SI32 8%Z)); FBasic (BConst (VI32 9%Z)); FBasic (BSet 80); FBasic (BGet 4); FBasic (BGet 80); FBasic (BOp (SStore SI32 12%Z)); FBr 40; FEnd; FBasic (BConst (VI32 1050209%Z)); FBasic (BSet 81); FBasic (BGet 4); FBasic (BGet 81); FBasic (BOp (SStore SI32 8%Z)); FBasic (BConst (VI32 18%Z)); FBasic (BSet 82); FBasic (BGet 4); FBasic (BGet 82); FBasic (BOp (SStore SI32 12%Z)); FBr 39; FEnd; FBasic (BConst (VI32 1050227%Z)); FBasic (BSet 83); FBasic (BGet 4); FBasic (BGet 83); FBasic (BOp (SStore SI32 8%Z)); FBasic (BConst (VI32 16%Z)); FBasic (BSet 84); FBasic (BGet 4); FBasic (BGet 84); FBasic (BOp (SStore SI32 12%Z)); FBr 38; FEnd; FBasic (BConst (VI32 1050243%Z)); FBasic (BSet 85); FBasic (BGet 4); FBasic (BGet 85); FBasic (BOp (SStore SI32 8%Z)); FBasic (BConst (VI32 30%Z)); FBasic (BSet 86); FBasic (BGet 4); FBasic (BGet 86); FBasic (BOp (SStore SI32 12%Z)); FBr 37; FEnd; FBasic (BConst (VI32 1050273%Z)); FBasic (BSet 87); FBasic (BGet 4); FBasic (BGet 87); FBasic (BOp (SStore SI32 8%Z)); FBasic (BConst (VI32 20%Z)); FBasic (BSet 88); FBasic (BGet 4); FBasic (BGet 88); FBasic (BOp (SStore SI32 12%Z)); FBr 36; FEnd; FBasic (BConst (VI32 1050293%Z)); FBasic (BSet 89); FBasic (BGet 4); FBasic (BGet 89); FBasic (BOp (SStore SI32 8%Z)); FBasic (BConst (VI32 30%Z)); FBasic (BSet 90); FBasic (BGet 4); FBasic (BGet 90); FBasic (BOp (SStore SI32 12%Z)); FBr 35; FEnd; FBasic (BConst (VI32 1050323%Z)); FBasic (BSet 91); FBasic (BGet 4); FBasic (BGet 91); FBasic (BOp (SStore SI32 8%Z)); FBasic (BConst (VI32 26%Z)); FBasic (BSet 92); FBasic (BGet 4); FBasic (BGet 92); FBasic (BOp (SStore SI32 12%Z)); FBr 34; FEnd; FBasic (BConst (VI32 1050349%Z)); FBasic (BSet 93); FBasic (BGet 4); FBasic (BGet 93); FBasic (BOp (SStore SI32 8%Z)); FBasic (BConst (VI32 15%Z)); FBasic (BSet 94); FBasic (BGet 4); FBasic (BGet 94); FBasic (BOp (SStore SI32 12%Z)); FBr 33; FEnd; FBasic (BConst (VI32 1050364%Z)); FBasic (BSet 95); FBasic (BGet 4); FBasic (BGet 95); FBasic (BOp (SStore SI32 8%Z)); FBasic (BConst (VI32 26%Z)); FBasic (BSet 96); FBasic (BGet 4); FBasic (BGet 96); FBasic (BOp (SStore SI32 12%Z)); FBr 32; FEnd; FBasic (BConst (VI32 1050390%Z)); FBasic (BSet 97); FBasic (BGet 4); FBasic (BGet 97); FBasic (BOp (SStore SI32 8%Z)); FBasic (BConst (VI32 29%Z)); FBasic (BSet 98); FBasic (BGet 4); FBasic (BGet 98); FBasic (BOp (SStore SI32 12%Z)); FBr 31; FEnd; FBasic (BConst (VI32 1050419%Z)); FBasic (BSet 99); FBasic (BGet 4); FBasic (BGet 99); FBasic (BOp (SStore SI32 8%Z)); FBasic (BConst (VI32 19%Z)); FBasic (BSet 100); FBasic (BGet 4); FBasic (BGet 100); FBasic (BOp (SStore SI32 12%Z)); FBr 30; FEnd; FBasic (BConst (VI32 1049896%Z)); FBasic (BSet 101); FBasic (BGet 4); FBasic (BGet 101); FBasic (BOp (SStore SI32 8%Z)); FBasic (BConst (VI32 9%Z)); FBasic (BSet 102); FBasic (BGet 4); FBasic (BGet 102); FBasic (BOp (SStore SI32 12%Z)); FBr 29; FEnd; FBasic (BConst (VI32 1050438%Z)); FBasic (BSet 103); FBasic (BGet 4); FBasic (BGet 103); FBasic (BOp (SStore SI32 8%Z)); FBasic (BConst (VI32 17%Z)); FBasic (BSet 104); FBasic (BGet 4); FBasic (BGet 104); FBasic (BOp (SStore SI32 12%Z)); FBr 28; FEnd; FBasic (BConst (VI32 1050455%Z)); FBasic (BSet 105); FBasic (BGet 4); FBasic (BGet 105); FBasic (BOp (SStore SI32 8%Z)); FBasic (BConst (VI32 31%Z)); FBasic (BSet 106); FBasic (BGet 4); FBasic (BGet 106); FBasic (BOp (SStore SI32 12%Z)); FBr 27; FEnd; FBasic (BConst (VI32 1050486%Z)); FBasic (BSet 107); FBasic (BGet 4); FBasic (BGet 107); FBasic (BOp (SStore SI32 8%Z)); FBasic (BConst (VI32 23%Z)); FBasic (BSet 108); FBasic (BGet 4); FBasic (BGet 108); FBasic (BOp (SStore SI32 12%Z)); FBr 26; FEnd; FBasic (BConst (VI32 1050509%Z)); FBasic (BSet 109); FBasic (BGet 4); FBasic (BGet 109); FBasic (BOp (SStore SI32 8%Z)); FBasic (BConst (VI32 24%Z)); FBasic (BSet 110); FBasic (BGet 4); FBasic (BGet 110); FBasic (BOp (SStore SI32 12%Z)); FBr 25; FEnd; FBasic (BConst (VI32 1050533%Z)); FBasic (BSet 111); FBasic (BGet 4); FBasic (BGet 111); FBasic (BOp (SStore SI32 8%Z)); FBasic (BConst (VI32 23%Z)); FBasic (BSet 112); FBasic (BGet 4); FBasic (BGet 112); FBasic (BOp (SStore SI32 12%Z)); FBr 24; FEnd; FBasic (BConst (VI32 1050556%Z)); FBasic (BSet 113); FBasic (BGet 4); FBasic (BGet 113); FBasic (BOp (SStore SI32 8%Z)); FBasic (BConst (VI32 28%Z)); FBasic (BSet 114); FBasic (BGet 4); FBasic (BGet 114); FBasic (BOp (SStore SI32 12%Z)); FBr 23; FEnd; FBasic (BConst (VI32 1050584%Z)); FBasic (BSet 115); FBasic (BGet 4); FBasic (BGet 115); FBasic (BOp (SStore SI32 8%Z)); FBasic (BConst (VI32 50%Z)); FBasic (BSet 116); FBasic (BGet 4); FBasic (BGet 116); FBasic (BOp (SStore SI32 12%Z)); FBr 22; FEnd; FBasic (BConst (VI32 1050634%Z)); FBasic (BSet 117); FBasic (BGet 4); FBasic (BGet 117); FBasic (BOp (SStore SI32 8%Z)); FBasic (BConst (VI32 20%Z)); FBasic (BSet 118); FBasic (BGet 4); FBasic (BGet 118); FBasic (BOp (SStore SI32 12%Z)); FBr 21; FEnd; FBasic (BConst (VI32 1050654%Z)); FBasic (BSet 119); FBasic (BGet 4); FBasic (BGet 119); FBasic (BOp (SStore SI32 8%Z)); FBasic (BConst (VI32 22%Z)); FBasic (BSet 120); FBasic (BGet 4); FBasic (BGet 120); FBasic (BOp (SStore SI32 12%Z)); FBr 20; FEnd; FBasic (BConst (VI32 1050676%Z)); FBasic (BSet 121); FBasic (BGet 4); FBasic (BGet 121); FBasic (BOp (SStore SI32 8%Z)); FBasic (BConst (VI32 13%Z)); FBasic (BSet 122); FBasic (BGet 4); FBasic (BGet 122); FBasic (BOp (SStore SI32 12%Z)); FBr 19; FEnd; FBasic (BConst (VI32 1050689%Z)); FBasic (BSet 123); FBasic (BGet 4); FBasic (BGet 123); FBasic (BOp (SStore SI32 8%Z)); FBasic (BConst (VI32 52%Z)); FBasic (BSet 124); FBasic (BGet 4); FBasic (BGet 124); FBasic (BOp (SStore SI32 12%Z)); FBr 18; FEnd; FBasic (BConst (VI32 1050741%Z)); FBasic (BSet 125); FBasic (BGet 4); FBasic (BGet 125); FBasic (BOp (SStore SI32 8%Z)); FBasic (BConst (VI32 36%Z)); FBasic (BSet 126); FBasic (BGet 4); FBasic (BGet 126); FBasic (BOp (SStore SI32 12%Z)); FBr 17; FEnd; FBasic (BConst (VI32 1050777%Z)); FBasic (BSet 127); FBasic (BGet 4); FBasic (BGet 127); FBasic (BOp (SStore SI32 8%Z)); FBasic (BConst (VI32 26%Z)); FBasic (BSet 128); FBasic (BGet 4); FBasic (BGet 128); FBasic (BOp (SStore SI32 12%Z)); FBr 16; FEnd; FBasic (BConst (VI32 1050803%Z)); FBasic (BSet 129); FBasic (BGet 4); FBasic (BGet 129); FBasic (BOp (SStore SI32 8%Z)); FBasic (BConst (VI32 42%Z)); FBasic (BSet 130); FBasic (BGet 4); FBasic (BGet 130); FBasic (BOp (SStore SI32 12%Z)); FBr 15; FEnd; FBasic (BConst (VI32 1050845%Z)); FBasic (BSet 131); FBasic (BGet 4); FBasic (BGet 131); FBasic (BOp (SStore SI32 8%Z)); FBasic (BConst (VI32 20%Z)); FBasic (BSet 132); FBasic (BGet 4); FBasic (BGet 132); FBasic (BOp (SStore SI32 12%Z)); FBr 14; FEnd; FBasic (BConst (VI32 1050865%Z)); FBasic (BSet 133); FBasic (BGet 4); FBasic (BGet 133); FBasic (BOp (SStore SI32 8%Z)); FBasic (BConst (VI32 24%Z)); FBasic (BSet 134); FBasic (BGet 4); FBasic (BGet 134); FBasic (BOp (SStore SI32 12%Z)); FBr 13; FEnd; FBasic (BConst (VI32 1050889%Z)); FBasic (BSet 135); FBasic (BGet 4); FBasic (BGet 135); FBasic (BOp (SStore SI32 8%Z)); FBasic (BConst (VI32 12%Z)); FBasic (BSet 136); FBasic (BGet 4); FBasic (BGet 136); FBasic (BOp (SStore SI32 12%Z)); FBr 12; FEnd; FBasic (BConst (VI32 1050901%Z)); FBasic (BSet 137); FBasic (BGet 4); FBasic (BGet 137); FBasic (BOp (SStore SI32 8%Z)); FBasic (BConst (VI32 15%Z)); FBasic (BSet 138); FBasic (BGet 4); FBasic (BGet 138); FBasic (BOp (SStore SI32 12%Z)); FBr 11; FEnd; FBasic (BConst (VI32 1050916%Z)); FBasic (BSet 139); FBasic (BGet 4); FBasic (BGet 139); FBasic (BOp (SStore SI32 8%Z)); FBasic (BConst (VI32 23%Z)); FBasic (BSet 140); FBasic (BGet 4); FBasic (BGet 140); FBasic (BOp (SStore SI32 12%Z)); FBr 10; FEnd; FBasic (BConst (VI32 1050939%Z)); FBasic (BSet 141); FBasic (BGet 4); FBasic (BGet 141); FBasic (BOp (SStore SI32 8%Z)); FBasic (BConst (VI32 31%Z)); FBasic (BSet 142); FBasic (BGet 4); FBasic (BGet 142); FBasic (BOp (SStore SI32 12%Z)); FBr 9; FEnd; FBasic (BConst (VI32 1050970%Z)); FBasic (BSet 143); FBasic (BGet 4); FBasic (BGet 143); FBasic (BOp (SStore SI32 8%Z)); FBasic (BConst (VI32 17%Z)); FBasic (BSet 144); FBasic (BGet 4); FBasic (BGet 144); FBasic (BOp (SStore SI32 12%Z)); FBr 8; FEnd; FBasic (BConst (VI32 1050987%Z)); FBasic (BSet 145); FBasic (BGet 4); FBasic (BGet 145); FBasic (BOp (SStore SI32 8%Z)); FBasic (BConst (VI32 22%Z)); FBasic (BSet 146); FBasic (BGet 4); FBasic (BGet 146); FBasic (BOp (SStore SI32 12%Z)); FBr 7; FEnd; FBasic (BConst (VI32 1051009%Z)); FBasic (BSet 147); FBasic (BGet 4); FBasic (BGet 147); FBasic (BOp (SStore SI32 8%Z)); FBasic (BConst (VI32 13%Z)); FBasic (BSet 148); FBasic (BGet 4); FBasic (BGet 148); FBasic (BOp (SStore SI32 12%Z)); FBr 6; FEnd; FBasic (BConst (VI32 1051022%Z)); FBasic (BSet 149); FBasic (BGet 4); FBasic (BGet 149); FBasic (BOp (SStore SI32 8%Z)); FBasic (BConst (VI32 16%Z)); FBasic (BSet 150); FBasic (BGet 4); FBasic (BGet 150); FBasic (BOp (SStore SI32 12%Z)); FBr 5; FEnd; FBasic (BConst (VI32 1049896%Z)); FBasic (BSet 151); FBasic (BGet 4); FBasic (BGet 151); FBasic (BOp (SStore SI32 8%Z)); FBasic (BConst (VI32 9%Z)); FBasic (BSet 152); FBasic (BGet 4); FBasic (BGet 152); FBasic (BOp (SStore SI32 12%Z)); FBr 4; FEnd; FBasic (BConst (VI32 1051038%Z)); FBasic (BSet 153); FBasic (BGet 4); FBasic (BGet 153); FBasic (BOp (SStore SI32 8%Z)); FBasic (BConst (VI32 21%Z)); FBasic (BSet 154); FBasic (BGet 4); FBasic (BGet 154); FBasic (BOp (SStore SI32 12%Z)); FBr 3; FEnd; FBasic (BConst (VI32 1051059%Z)); FBasic (BSet 155); FBasic (BGet 4); FBasic (BGet 155); FBasic (BOp (SStore SI32 8%Z)); FBasic (BConst (VI32 15%Z)); FBasic (BSet 156); FBasic (BGet 4); FBasic (BGet 156); FBasic (BOp (SStore SI32 12%Z)); FBr 2; FEnd; FBasic (BConst (VI32 1051074%Z)); FBasic (BSet 157); FBasic (BGet 4); FBasic (BGet 157); FBasic (BOp (SStore SI32 8%Z)); FBasic (BConst (VI32 18%Z)); FBasic (BSet 158); FBasic (BGet 4); FBasic (BGet 158); FBasic (BOp (SStore SI32 12%Z)); FBr 1; FEnd; FBasic (BConst (VI32 1051092%Z)); FBasic (BSet 159); FBasic (BGet 4); FBasic (BGet 159); FBasic (BOp (SStore SI32 8%Z)); FBasic (BConst (VI32 37%Z)); FBasic (BSet 160); FBasic (BGet 4); FBasic (BGet 160); FBasic (BOp (SStore SI32 12%Z)); FEnd; FBasic (BGet 4); FBasic (BOp (SLoad LI32 8%Z)); FBasic (BSet 161); FBasic (BGet 4); FBasic (BOp (SLoad LI32 12%Z)); FBasic (BSet 162); FBasic (BGet 0); FBasic (BGet 162); FBasic (BOp (SStore SI32 4%Z)); FBasic (BGet 0); FBasic (BGet 161); FBasic (BOp (SStore SI32 0%Z)); FBasic (BConst (VI32 16%Z)); FBasic (BSet 163); FBasic (BGet 4); FBasic (BGet 163); FBasic (BOp (SNum2 (B_int W32 Iadd))); FBasic (BSet 164); FBasic (BGet 164); FBasic (BOp (SGlobalSet TI32 0)); FReturn; FEnd]; b_bad := false |};
    PCode {| b_locals := [TI32; TI32; TI32; TI32; TI32; TI32; TI32; TI32; TI32; TI32; TI32; TI32; TI32; TI32; TI32; TI32; TI32; TI32; TI32; TI32; TI32; TI32; TI32; TI32; TI32; TI32; TI32; TI32; TI32; TI32; TI32; TI32; TI32; TI32; TI32; TI32; TI32; TI32; TI32; TI32; TI32; TI32]; b_badlocals := false; b_ops := [FBasic (BOp (SGlobalGet TI32 0)); FBasic (BSet 2); FBasic (BConst (VI32 48%Z)); FBasic (BSet 3); FBasic (BGet 2); FBasic (BGet 3); FBasic (BOp (SNum2 (B_int W32 Isub))); FBasic (BSet 4); FBasic (BGet 4); FBasic (BOp (SGlobalSet TI32 0)); FBasic (BConst (VI32 24%Z)); FBasic (BSet 5); FBasic (BGet 4); FBasic (BGet 5); FBasic (BOp (SNum2 (B_int W32 Iadd))); FBasic (BSet 6); FBasic (BGet 6); FBasic (BSet 7); FBasic (BConst (VI32 1051129%Z)); FBasic (BSet 8); FBasic (BConst (VI32 5%Z)); FBasic (BSet 9); FBasic (BGet 7); FBasic (BGet 1); FBasic (BGet 8); FBasic (BGet 9); FCall 183; FBasic (BConst (VI32 24%Z)); FBasic (BSet 10); FBasic (BGet 4); FBasic (BGet 10); FBasic (BOp (SNum2 (B_int W32 Iadd))); FBasic (BSet 11); FBasic (BGet 11); FBasic (BSet 12); FBasic (BConst (VI32 1048867%Z)); FBasic (BSet 13); FBasic (BConst (VI32 4%Z)); FBasic (BSet 14); FBasic (BConst (VI32 1051136%Z)); FBasic (BSet 15); FBasic (BGet 12); FBasic (BGet 13); FBasic (BGet 14); FBasic (BGet 0); FBasic (BGet 15); FCall 165; FBasic (BSet 16); FBasic (BConst (VI32 8%Z)); FBasic (BSet 17); FBasic (BGet 4); FBasic (BGet 17); FBasic (BOp (SNum2 (B_int W32 Iadd))); FBasic (BSet 18); FBasic (BGet 18); FBasic (BGet 0); FCall 25; FBasic (BGet 4); FBasic (BOp (SLoad LI32 12%Z)); FBasic (BSet 19); FBasic (BGet 4); FBasic (BOp (SLoad LI32 8%Z)); FBasic (BSet 20); FBasic (BGet 4); FBasic (BGet 20); FBasic (BOp (SStore SI32 32%Z)); FBasic (BGet 4); FBasic (BGet 19); FBasic (BOp (SStore SI32 36%Z)); FBasic (BConst (VI32 1048871%Z)); FBasic (BSet 21); FBasic (BConst (VI32 4%Z)); FBasic (BSet 22); FBasic (BConst (VI32 32%Z)); FBasic (BSet 23); FBasic (BGet 4); FBasic (BGet 23); FBasic (BOp (SNum2 (B_int W32 Iadd))); FBasic (BSet 24); FBasic (BGet 24); FBasic (BSet 25); FBasic (BConst (VI32 1048876%Z)); FBasic (BSet 26); FBasic (BGet 16); FBasic (BGet 21); FBasic (BGet 22); FBasic (BGet 25); FBasic (BGet 26); FCall 165; FBasic (BSet 27); FBasic (BConst (VI32 16%Z)); FBasic (BSet 28); FBasic (BGet 4); FBasic (BGet 28); FBasic (BOp (SNum2 (B_int W32 Iadd))); FBasic (BSet 29); FBasic (BGet 29); FBasic (BGet 0); FCall 26; FBasic (BGet 4); FBasic (BOp (SLoad LI32 20%Z)); FBasic (BSet 30); FBasic (BGet 4); FBasic (BOp (SLoad LI32 16%Z)); FBasic (BSet 31); FBasic (BGet 4); FBasic (BGet 31); FBasic (BOp (SStore SI32 40%Z)); FBasic (BGet 4); FBasic (BGet 30); FBasic (BOp (SStore SI32 44%Z)); FBasic (BConst (VI32 1048892%Z)); FBasic (BSet 32); FBasic (BConst (VI32 7%Z)); FBasic (BSet 33); FBasic (BConst (VI32 40%Z)); FBasic (BSet 34); FBasic (BGet 4); FBasic (BGet 34); FBasic (BOp (SNum2 (B_int W32 Iadd))); FBasic (BSet 35); FBasic (BGet 35); FBasic (BSet 36); FBasic (BConst (VI32 1048876%Z)); FBasic (BSet 37); FBasic (BGet 27); FBasic (BGet 32); FBasic (BGet 33); FBasic (BGet 36); FBasic (BGet 37); FCall 165; FBasic (BSet 38); FBasic (BGet 38); FCall 179; FBasic (BSet 39); FBasic (BConst (VI32 1%Z)); FBasic (BSet 40); FBasic (BGet 39); FBasic (BGet 40); FBasic (BOp (SNum2 (B_int W32 Iand))); FBasic (BSet 41); FBasic (BConst (VI32 48%Z)); FBasic (BSet 42); FBasic (BGet 4); FBasic (BGet 42); FBasic (BOp (SNum2 (B_int W32 Iadd))); FBasic (BSet 43); FBasic (BGet 43); FBasic (BOp (SGlobalSet TI32 0)); FBasic (BGet 41); FReturn; FEnd]; b_bad := false |};
    PCode {| b_locals := [TI32; TI32; TI32; TI32; TI32; TI32; TI32; TI32; TI32; TI32]; b_badlocals := false; b_ops := [FBasic (BOp (SGlobalGet TI32 0)); FBasic (BSet 1); FBasic (BConst (VI32 16%Z)); FBasic (BSet 2); FBasic (BGet 1); FBasic (BGet 2); FBasic (BOp (SNum2 (B_int W32 Isub))); FBasic (BSet 3); FBasic (BGet 3); FBasic (BOp (SGlobalSet TI32 0)); FCall 0; FBasic (BSet 4); FBlock false [] []; FBlock false [] []; FBasic (BGet 4); FBrIf 0; FBasic (BConst (VI32 0%Z)); FBasic (BSet 5); FBasic (BGet 3); FBasic (BGet 5); FBasic (BOp (SStore SI32_16 12%Z)); FBr 1; FEnd; FBasic (BGet 3); FBasic (BGet 4); FBasic (BOp (SStore SI32_16 14%Z)); FBasic (BConst (VI32 1%Z)); FBasic (BSet 6); FBasic (BGet 3); FBasic (BGet 6); FBasic (BOp (SStore SI32_16 12%Z)); FEnd; FBasic (BGet 3); FBasic (BOp (SLoad LI32_16u 12%Z)); FBasic (BSet 7); FBasic (BGet 3); FBasic (BOp (SLoad LI32_16u 14%Z)); FBasic (BSet 8); FBasic (BGet 0); FBasic (BGet 8); FBasic (BOp (SStore SI32_16 2%Z)); FBasic (BGet 0); FBasic (BGet 7); FBasic (BOp (SStore SI32_16 0%Z)); FBasic (BConst (VI32 16%Z)); FBasic (BSet 9); FBasic (BGet 3); FBasic (BGet 9); FBasic (BOp (SNum2 (B_int W32 Iadd))); FBasic (BSet 10); FBasic (BGet 10); FBasic (BOp (SGlobalSet TI32 0)); FReturn; FEnd]; b_bad := false |};
    PCode {| b_locals := []; b_badlocals := false; b_ops := [FBasic (BGet 0); FBasic (BConst (VI64 7199936582794304877%Z)); FBasic (BOp (SStore SI64 8%Z)); FBasic (BGet 0); FBasic (BConst (VI64 (-5076933981314334344)%Z)); FBasic (BOp (SStore SI64 0%Z)); FEnd]; b_bad := false |};
    PCode {| b_locals := []; b_badlocals := false; b_ops := [FBasic (BGet 0); FBasic (BConst (VI64 3353964679774260343%Z)); FBasic (BOp (SStore SI64 8%Z)); FBasic (BGet 0); FBasic (BConst (VI64 (-5190768330908619786)%Z)); FBasic (BOp (SStore SI64 0%Z)); FEnd]; b_bad := false |};
    PCode {| b_locals := []; b_badlocals := false; b_ops := [FBasic (BGet 0); FBasic (BOp (SLoad LI32 0%Z)); FBasic (BGet 1); FCall 184; FEnd]; b_bad := false |};
    PCode {| b_locals := [TI32; TI32; TI32; TI64]; b_badlocals := false; b_ops := [FBasic (BOp (SGlobalGet TI32 0)); FBasic (BConst (VI32 48%Z)); FBasic (BOp (SNum2 (B_int W32 Isub))); FBasic (BTee 2); FBasic (BOp (SGlobalSet TI32 0)); FBasic (BGet 1); FBasic (BOp (SLoad LI32 4%Z)); FBasic (BSet 3); FBasic (BGet 1); FBasic (BOp (SLoad LI32 0%Z)); FBasic (BSet 4); FBasic (BGet 0); FBasic (BOp (SLoad LI32 0%Z)); FBasic (BSet 1); FBasic (BGet 2); FBasic (BConst (VI32 3%Z)); FBasic (BOp (SStore SI32 4%Z)); FBasic (BGet 2); FBasic (BConst (VI32 1051388%Z)); FBasic (BOp (SStore SI32 0%Z)); FBasic (BGet 2); FBasic (BConst (VI64 3%Z)); FBasic (BOp (SStore SI64 12%Z)); FBasic (BGet 2); FBasic (BConst (VI32 7%Z)); FBasic (BOp (SCvt (C_ext Ux))); FBasic (BConst (VI64 32%Z)); FBasic (BOp (SNum2 (B_int W64 Ishl))); FBasic (BGet 1); FBasic (BOp (SCvt (C_ext Ux))); FBasic (BOp (SNum2 (B_int W64 Ior))); FBasic (BOp (SStore SI64 24%Z)); FBasic (BGet 2); FBasic (BConst (VI32 8%Z)); FBasic (BOp (SCvt (C_ext Ux))); FBasic (BConst (VI64 32%Z)); FBasic (BOp (SNum2 (B_int W64 Ishl))); FBasic (BTee 5); FBasic (BGet 1); FBasic (BConst (VI32 12%Z)); FBasic (BOp (SNum2 (B_int W32 Iadd))); FBasic (BOp (SCvt (C_ext Ux))); FBasic (BOp (SNum2 (B_int W64 Ior))); FBasic (BOp (SStore SI64 40%Z)); FBasic (BGet 2); FBasic (BGet 5); FBasic (BGet 1); FBasic (BConst (VI32 8%Z)); FBasic (BOp (SNum2 (B_int W32 Iadd))); FBasic (BOp (SCvt (C_ext Ux))); FBasic (BOp (SNum2 (B_int W64 Ior))); FBasic (BOp (SStore SI64 32%Z)); FBasic (BGet 2); FBasic (BGet 2); FBasic (BConst (VI32 24%Z)); FBasic (BOp (SNum2 (B_int W32 Iadd))); FBasic (BOp (SStore SI32 8%Z)); FBasic (BGet 4); FBasic (BGet 3); FBasic (BGet 2); FCall 153; FBasic (BSet 1); FBasic (BGet 2); FBasic (BConst (VI32 48%Z)); FBasic (BOp (SNum2 (B_int W32 Iadd))); FBasic (BOp (SGlobalSet TI32 0)); FBasic (BGet 1); FEnd]; b_bad := false |};
    PCode {| b_locals := []; b_badlocals := false; b_ops := [FBasic (BGet 0); FBasic (BOp (SLoad LI32 0%Z)); FBasic (BGet 0); FBasic (BOp (SLoad LI32 4%Z)); FBasic (BGet 1); FCall 187; FEnd]; b_bad := false |};
    PCode {| b_locals := [TI32; TI32]; b_badlocals := false; b_ops := [FBasic (BOp (SGlobalGet TI32 0)); FBasic (BConst (VI32 16%Z)); FBasic (BOp (SNum2 (B_int W32 Isub))); FBasic (BTee 2); FBasic (BOp (SGlobalSet TI32 0)); FBasic (BGet 2); FBasic (BConst (VI32 0%Z)); FBasic (BOp (SStore SI32 12%Z)); FBlock false [] []; FBlock false [] []; FBlock false [] []; FBasic (BGet 1); FBasic (BConst (VI32 128%Z)); FBasic (BOp (SNum2 (B_irel W32 Ilt_u))); FBrIf 0; FBasic (BGet 1); FBasic (BConst (VI32 2048%Z)); FBasic (BOp (SNum2 (B_irel W32 Ilt_u))); FBrIf 1; FBlock false [] []; FBasic (BGet 1); FBasic (BConst (VI32 65536%Z)); FBasic (BOp (SNum2 (B_irel W32 Ilt_u))); FBrIf 0; FBasic (BGet 2); FBasic (BGet 1); FBasic (BConst (VI32 63%Z)); FBasic (BOp (SNum2 (B_int W32 Iand))); FBasic (BConst (VI32 128%Z)); FBasic (BOp (SNum2 (B_int W32 Ior))); FBasic (BOp (SStore SI32_8 15%Z)); FBasic (BGet 2); FBasic (BGet 1); FBasic (BConst (VI32 18%Z)); FBasic (BOp (SNum2 (B_int W32 Ishr_u))); FBasic (BConst (VI32 240%Z)); FBasic (BOp (SNum2 (B_int W32 Ior))); FBasic (BOp (SStore SI32_8 12%Z)); FBasic (BGet 2); FBasic (BGet 1); FBasic (BConst (VI32 6%Z)); FBasic (BOp (SNum2 (B_int W32 Ishr_u))); FBasic (BConst (VI32 63%Z)); FBasic (BOp (SNum2 (B_int W32 Iand))); FBasic (BConst (VI32 128%Z)); FBasic (BOp (SNum2 (B_int W32 Ior))); FBasic (BOp (SStore SI32_8 14%Z)); FBasic (BGet 2); FBasic (BGet 1); FBasic (BConst (VI32 12%Z)); FBasic (BOp (SNum2 (B_int W32 Ishr_u))); FBasic (BConst (VI32 63%Z)); FBasic (BOp (SNum2 (B_int W32 Iand))); FBasic (BConst (VI32 128%Z)); FBasic (BOp (SNum2 (B_int W32 Ior))); FBasic (BOp (SStore SI32_8 13%Z)); FBasic (BConst (VI32 4%Z)); FBasic (BSet 1); FBr 3; FEnd; FBasic (BGet 2); FBasic (BGet 1); FBasic (BConst (VI32 63%Z)); FBasic (BOp (SNum2 (B_int W32 Iand))); FBasic (BConst (VI32 128%Z)); FBasic (BOp (SNum2 (B_int W32 Ior))); FBasic (BOp (SStore SI32_8 14%Z)); FBasic (BGet 2); FBasic (BGet 1); FBasic (BConst (VI32 12%Z)); FBasic (BOp (SNum2 (B_int W32 Ishr_u))); FBasic (BConst (VI32 224%Z)); FBasic (BOp (SNum2 (B_int W32 Ior))); FBasic (BOp (SStore SI32_8 12%Z)); FBasic (BGet 2); FBasic (BGet 1); FBasic (BConst (VI32 6%Z)); FBasic (BOp (SNum2 (B_int W32 Ishr_u))); FBasic (BConst (VI32 63%Z)); FBasic (BOp (SNum2 (B_int W32 Iand))); FBasic (BConst (VI32 128%Z)); FBasic (BOp (SNum2 (B_int W32 Ior))); FBasic (BOp (SStore SI32_8 13%Z)); FBasic (BConst (VI32 3%Z)); FBasic (BSet 1); FBr 2; FEnd; FBasic (BGet 2); FBasic (BGet 1); FBasic (BOp (SStore SI32_8 12%Z)); FBasic (BConst (VI32 1%Z)); FBasic (BSet 1); FBr 1; FEnd; FBasic (BGet 2); FBasic (BGet 1); FBasic (BConst (VI32 63%Z)); FBasic (BOp (SNum2 (B_int W32 Iand))); FBasic (BConst (VI32 128%Z)); FBasic (BOp (SNum2 (B_int W32 Ior))); FBasic (BOp (SStore SI32_8 13%Z)); FBasic (BGet 2); FBasic (BGet 1); FBasic (BConst (VI32 6%Z)); FBasic (BOp (SNum2 (B_int W32 Ishr_u))); FBasic (BConst (VI32 192%Z)); FBasic (BOp (SNum2 (B_int W32 Ior))); FBasic (BOp (SStore SI32_8 12%Z)); FBasic (BConst (VI32 2%Z)); FBasic (BSet 1); FEnd; FBlock false [] []; FBasic (BGet 1); FBasic (BGet 0); FBasic (BOp (SLoad LI32 8%Z)); FBasic (BTee 0); FBasic (BOp (SLoad LI32 0%Z)); FBasic (BGet 0); FBasic (BOp (SLoad LI32 8%Z)); FBasic (BTee 3); FBasic (BOp (SNum2 (B_int W32 Isub))); FBasic (BOp (SNum2 (B_irel W32 Ile_u))); FBrIf 0; FBasic (BGet 0); FBasic (BGet 3); FBasic (BGet 1); FBasic (BConst (VI32 1%Z)); FBasic (BConst (VI32 1%Z)); FCall 35; FBasic (BGet 0); FBasic (BOp (SLoad LI32 8%Z)); FBasic (BSet 3); FEnd; FBlock false [] []; FBasic (BGet 1); FBasic (BOp (SNum1 (U_eqz W32))); FBrIf 0; FBasic (BGet 0); FBasic (BOp (SLoad LI32 4%Z)); FBasic (BGet 3); FBasic (BOp (SNum2 (B_int W32 Iadd))); FBasic (BGet 2); FBasic (BConst (VI32 12%Z)); FBasic (BOp (SNum2 (B_int W32 Iadd))); FBasic (BGet 1); FBasic (BOp SMemCopy); FEnd; FBasic (BGet 0); FBasic (BGet 3); FBasic (BGet 1); FBasic (BOp (SNum2 (B_int W32 Iadd))); FBasic (BOp (SStore SI32 8%Z)); FBasic (BGet 2); FBasic (BConst (VI32 16%Z)); FBasic (BOp (SNum2 (B_int W32 Iadd))); FBasic (BOp (SGlobalSet TI32 0)); FBasic (BConst (VI32 0%Z)); FEnd]; b_bad := false |};
    PCode {| b_locals := [TI32; TI32; TI32; TI64; TI32]; b_badlocals := false; b_ops := [FBasic (BOp (SGlobalGet TI32 0)); FBasic (BConst (VI32 32%Z)); FBasic (BOp (SNum2 (B_int W32 Isub))); FBasic (BTee 5); FBasic (BOp (SGlobalSet TI32 0)); FBlock false [] []; FBlock false [] []; FBlock false [] []; FBasic (BGet 1); FBasic (BGet 2); FBasic (BOp (SNum2 (B_int W32 Iadd))); FBasic (BTee 2); FBasic (BGet 1); FBasic (BOp (SNum2 (B_irel W32 Ige_u))); FBrIf 0; FBasic (BConst (VI32 0%Z)); FBasic (BSet 6); FBr 1; FEnd; FBasic (BConst (VI32 0%Z)); FBasic (BSet 6); FBlock false [] []; FBasic (BGet 3); FBasic (BGet 4); FBasic (BOp (SNum2 (B_int W32 Iadd))); FBasic (BConst (VI32 (-1)%Z)); FBasic (BOp (SNum2 (B_int W32 Iadd))); FBasic (BConst (VI32 0%Z)); FBasic (BGet 3); FBasic (BOp (SNum2 (B_int W32 Isub))); FBasic (BOp (SNum2 (B_int W32 Iand))); FBasic (BOp (SCvt (C_ext Ux))); FBasic (BGet 2); FBasic (BGet 0); FBasic (BOp (SLoad LI32 0%Z)); FBasic (BTee 1); FBasic (BConst (VI32 1%Z)); FBasic (BOp (SNum2 (B_int W32 Ishl))); FBasic (BTee 7); FBasic (BGet 2); FBasic (BGet 7); FBasic (BOp (SNum2 (B_irel W32 Igt_u))); FBasic (BSelect None); FBasic (BTee 2); FBasic (BConst (VI32 8%Z)); FBasic (BConst (VI32 4%Z)); FBasic (BGet 4); FBasic (BConst (VI32 1%Z)); FBasic (BOp (SNum2 (B_irel W32 Ieq))); FBasic (BSelect None); FBasic (BTee 7); FBasic (BGet 2); FBasic (BGet 7); FBasic (BOp (SNum2 (B_irel W32 Igt_u))); FBasic (BSelect None); FBasic (BTee 7); FBasic (BOp (SCvt (C_ext Ux))); FBasic (BOp (SNum2 (B_int W64 Imul))); FBasic (BTee 8); FBasic (BConst (VI64 32%Z)); FBasic (BOp (SNum2 (B_int W64 Ishr_u))); FBasic (BOp (SCvt (C_wrap))); FBasic (BOp (SNum1 (U_eqz W32))); FBrIf 0; FBr 1; FEnd; FBasic (BGet 8); FBasic (BOp (SCvt (C_wrap))); FBasic (BTee 9); FBasic (BConst (VI32 (-2147483648)%Z)); FBasic (BGet 3); FBasic (BOp (SNum2 (B_int W32 Isub))); FBasic (BOp (SNum2 (B_irel W32 Igt_u))); FBrIf 0; FBasic (BConst (VI32 0%Z)); FBasic (BSet 2); FBlock false [] []; FBasic (BGet 1); FBasic (BOp (SNum1 (U_eqz W32))); FBrIf 0; FBasic (BGet 5); FBasic (BGet 1); FBasic (BGet 4); FBasic (BOp (SNum2 (B_int W32 Imul))); FBasic (BOp (SStore SI32 28%Z)); FBasic (BGet 5); FBasic (BGet 0); FBasic (BOp (SLoad LI32 4%Z)); FBasic (BOp (SStore SI32 20%Z)); FBasic (BGet 3); FBasic (BSet 2); FEnd; FBasic (BGet 5); FBasic (BGet 2); FBasic (BOp (SStore SI32 24%Z)); FBasic (BGet 5); FBasic (BConst (VI32 8%Z)); FBasic (BOp (SNum2 (B_int W32 Iadd))); FBasic (BGet 3); FBasic (BGet 9); FBasic (BGet 5); FBasic (BConst (VI32 20%Z)); FBasic (BOp (SNum2 (B_int W32 Iadd))); FCall 56; FBasic (BGet 5); FBasic (BOp (SLoad LI32 8%Z)); FBasic (BConst (VI32 1%Z)); FBasic (BOp (SNum2 (B_irel W32 Ine))); FBrIf 1; FBasic (BGet 5); FBasic (BOp (SLoad LI32 16%Z)); FBasic (BSet 2); FBasic (BGet 5); FBasic (BOp (SLoad LI32 12%Z)); FBasic (BSet 6); FEnd; FBasic (BGet 6); FBasic (BGet 2); FBasic (BConst (VI32 1051368%Z)); FCall 143; FUnreachable; FEnd; FBasic (BGet 5); FBasic (BOp (SLoad LI32 12%Z)); FBasic (BSet 3); FBasic (BGet 0); FBasic (BGet 7); FBasic (BOp (SStore SI32 0%Z)); FBasic (BGet 0); FBasic (BGet 3); FBasic (BOp (SStore SI32 4%Z)); FBasic (BGet 5); FBasic (BConst (VI32 32%Z)); FBasic (BOp (SNum2 (B_int W32 Iadd))); FBasic (BOp (SGlobalSet TI32 0)); FEnd]; b_bad := false |};
    PCode {| b_locals := [TI32; TI32; TI32; TI32; TI64; TI32; TI32; TI64]; b_badlocals := false; b_ops := [FBasic (BOp (SGlobalGet TI32 0)); FBasic (BConst (VI32 16%Z)); FBasic (BOp (SNum2 (B_int W32 Isub))); FBasic (BTee 2); FBasic (BOp (SGlobalSet TI32 0)); FBasic (BGet 2); FBasic (BConst (VI32 0%Z)); FBasic (BOp (SStore SI32 12%Z)); FBlock false [] []; FBlock false [] []; FBlock false [] []; FBasic (BGet 1); FBasic (BConst (VI32 128%Z)); FBasic (BOp (SNum2 (B_irel W32 Ilt_u))); FBrIf 0; FBasic (BGet 1); FBasic (BConst (VI32 2048%Z)); FBasic (BOp (SNum2 (B_irel W32 Ilt_u))); FBrIf 1; FBlock false [] []; FBasic (BGet 1); FBasic (BConst (VI32 65536%Z)); FBasic (BOp (SNum2 (B_irel W32 Ilt_u))); FBrIf 0; FBasic (BGet 2); FBasic (BGet 1); FBasic (BConst (VI32 63%Z)); FBasic (BOp (SNum2 (B_int W32 Iand))); FBasic (BConst (VI32 128%Z)); FBasic (BOp (SNum2 (B_int W32 Ior))); FBasic (BOp (SStore SI32_8 15%Z)); FBasic (BGet 2); FBasic (BGet 1); FBasic (BConst (VI32 18%Z)); FBasic (BOp (SNum2 (B_int W32 Ishr_u))); FBasic (BConst (VI32 240%Z)); FBasic (BOp (SNum2 (B_int W32 Ior))); FBasic (BOp (SStore SI32_8 12%Z)); FBasic (BGet 2); FBasic (BGet 1); FBasic (BConst (VI32 6%Z)); FBasic (BOp (SNum2 (B_int W32 Ishr_u))); FBasic (BConst (VI32 63%Z)); FBasic (BOp (SNum2 (B_int W32 Iand))); FBasic (BConst (VI32 128%Z)); FBasic (BOp (SNum2 (B_int W32 Ior))); FBasic (BOp (SStore SI32_8 14%Z)); FBasic (BGet 2); FBasic (BGet 1); FBasic (BConst (VI32 12%Z)); FBasic (BOp (SNum2 (B_int W32 Ishr_u))); FBasic (BConst (VI32 63%Z)); FBasic (BOp (SNum2 (B_int W32 Iand))); FBasic (BConst (VI32 128%Z)); FBasic (BOp (SNum2 (B_int W32 Ior))); FBasic (BOp (SStore SI32_8 13%Z)); FBasic (BConst (VI32 4%Z)); FBasic (BSet 1); FBr 3; FEnd; FBasic (BGet 2); FBasic (BGet 1); FBasic (BConst (VI32 63%Z)); FBasic (BOp (SNum2 (B_int W32 Iand))); FBasic (BConst (VI32 128%Z)); FBasic (BOp (SNum2 (B_int W32 Ior))); FBasic (BOp (SStore SI32_8 14%Z)); FBasic (BGet 2); FBasic (BGet 1); FBasic (BConst (VI32 12%Z)); FBasic (BOp (SNum2 (B_int W32 Ishr_u))); FBasic (BConst (VI32 224%Z)); FBasic (BOp (SNum2 (B_int W32 Ior))); FBasic (BOp (SStore SI32_8 12%Z)); FBasic (BGet 2); FBasic (BGet 1); FBasic (BConst (VI32 6%Z)); FBasic (BOp (SNum2 (B_int W32 Ishr_u))); FBasic (BConst (VI32 63%Z)); FBasic (BOp (SNum2 (B_int W32 Iand))); FBasic (BConst (VI32 128%Z)); FBasic (BOp (SNum2 (B_int W32 Ior))); FBasic (BOp (SStore SI32_8 13%Z)); FBasic (BConst (VI32 3%Z)); FBasic (BSet 1); FBr 2; FEnd; FBasic (BGet 2); FBasic (BGet 1); FBasic (BOp (SStore SI32_8 12%Z)); FBasic (BConst (VI32 1%Z)); FBasic (BSet 1); FBr 1; FEnd; FBasic (BGet 2); FBasic (BGet 1); FBasic (BConst (VI32 63%Z)); FBasic (BOp (SNum2 (B_int W32 Iand))); FBasic (BConst (VI32 128%Z)); FBasic (BOp (SNum2 (B_int W32 Ior))); FBasic (BOp (SStore SI32_8 13%Z)); FBasic (BGet 2); FBasic (BGet 1); FBasic (BConst (VI32 6%Z)); FBasic (BOp (SNum2 (B_int W32 Ishr_u))); FBasic (BConst (VI32 192%Z)); FBasic (BOp (SNum2 (B_int W32 Ior))); FBasic (BOp (SStore SI32_8 12%Z)); FBasic (BConst (VI32 2%Z)); FBasic (BSet 1); FEnd; FBasic (BConst (VI32 0%Z)); FBasic (BSet 3); FBlock false [] []; FBasic (BConst (VI32 0%Z)); FBasic (BGet 0); FBasic (BOp (SLoad LI32 8%Z)); FBasic (BTee 4); FBasic (BOp (SLoad LI32 4%Z)); FBasic (BTee 5); FBasic (BGet 4); FBasic (BOp (SLoad LI64 8%Z)); FBasic (BTee 6); FBasic (BConst (VI64 4294967295%Z)); FBasic (BGet 6); FBasic (BConst (VI64 4294967295%Z)); FBasic (BOp (SNum2 (B_irel W64 Ilt_u))); FBasic (BSelect None); FBasic (BOp (SCvt (C_wrap))); FBasic (BOp (SNum2 (B_int W32 Isub))); FBasic (BTee 7); FBasic (BGet 7); FBasic (BGet 5); FBasic (BOp (SNum2 (B_irel W32 Igt_u))); FBasic (BSelect None); FBasic (BTee 7); FBasic (BGet 1); FBasic (BGet 7); FBasic (BGet 1); FBasic (BOp (SNum2 (B_irel W32 Ilt_u))); FBasic (BSelect None); FBasic (BTee 8); FBasic (BOp (SNum1 (U_eqz W32))); FBrIf 0; FBasic (BGet 4); FBasic (BOp (SLoad LI32 0%Z)); FBasic (BGet 6); FBasic (BGet 5); FBasic (BOp (SCvt (C_ext Ux))); FBasic (BTee 9); FBasic (BGet 6); FBasic (BGet 9); FBasic (BOp (SNum2 (B_irel W64 Ilt_u))); FBasic (BSelect None); FBasic (BOp (SCvt (C_wrap))); FBasic (BOp (SNum2 (B_int W32 Iadd))); FBasic (BGet 2); FBasic (BConst (VI32 12%Z)); FBasic (BOp (SNum2 (B_int W32 Iadd))); FBasic (BGet 8); FBasic (BOp SMemCopy); FEnd; FBasic (BGet 4); FBasic (BGet 6); FBasic (BGet 8); FBasic (BOp (SCvt (C_ext Ux))); FBasic (BOp (SNum2 (B_int W64 Iadd))); FBasic (BOp (SStore SI64 8%Z)); FBlock false [] []; FBasic (BGet 7); FBasic (BGet 1); FBasic (BOp (SNum2 (B_irel W32 Ige_u))); FBrIf 0; FBasic (BConst (VI32 0%Z)); FBasic (BSet 3); FBasic (BConst (VI32 0%Z)); FBasic (BOp (SLoad LI64 1051864%Z)); FBasic (BTee 6); FBasic (BConst (VI64 255%Z)); FBasic (BOp (SNum2 (B_int W64 Iand))); FBasic (BConst (VI64 4%Z)); FBasic (BOp (SNum2 (B_irel W64 Ieq))); FBrIf 0; FBasic (BGet 0); FBasic (BOp (SLoad LI32 4%Z)); FBasic (BSet 4); FBlock false [] []; FBlock false [] []; FBasic (BGet 0); FBasic (BOp (SLoad LI32_8u 0%Z)); FBasic (BTee 1); FBasic (BConst (VI32 4%Z)); FBasic (BOp (SNum2 (B_irel W32 Igt_u))); FBrIf 0; FBasic (BGet 1); FBasic (BConst (VI32 3%Z)); FBasic (BOp (SNum2 (B_irel W32 Ine))); FBrIf 1; FEnd; FBasic (BGet 4); FBasic (BOp (SLoad LI32 0%Z)); FBasic (BSet 7); FBlock false [] []; FBasic (BGet 4); FBasic (BConst (VI32 4%Z)); FBasic (BOp (SNum2 (B_int W32 Iadd))); FBasic (BOp (SLoad LI32 0%Z)); FBasic (BTee 1); FBasic (BOp (SLoad LI32 0%Z)); FBasic (BTee 3); FBasic (BOp (SNum1 (U_eqz W32))); FBrIf 0; FBasic (BGet 7); FBasic (BGet 3); FCallInd 1 0; FEnd; FBlock false [] []; FBasic (BGet 1); FBasic (BOp (SLoad LI32 4%Z)); FBasic (BTee 3); FBasic (BOp (SNum1 (U_eqz W32))); FBrIf 0; FBasic (BGet 7); FBasic (BGet 3); FBasic (BGet 1); FBasic (BOp (SLoad LI32 8%Z)); FCall 19; FEnd; FBasic (BGet 4); FBasic (BConst (VI32 12%Z)); FBasic (BConst (VI32 4%Z)); FCall 19; FEnd; FBasic (BGet 0); FBasic (BGet 6); FBasic (BOp (SStore SI64 0%Z)); FBasic (BConst (VI32 1%Z)); FBasic (BSet 3); FEnd; FBasic (BGet 2); FBasic (BConst (VI32 16%Z)); FBasic (BOp (SNum2 (B_int W32 Iadd))); FBasic (BOp (SGlobalSet TI32 0)); FBasic (BGet 3); FEnd]; b_bad := false |};
    PCode {| b_locals := [TI32]; b_badlocals := false; b_ops := [FBasic (BOp (SGlobalGet TI32 0)); FBasic (BConst (VI32 16%Z)); FBasic (BOp (SNum2 (B_int W32 Isub))); FBasic (BTee 2); FBasic (BOp (SGlobalSet TI32 0)); FBasic (BGet 2); FBasic (BConst (VI32 0%Z)); FBasic (BOp (SStore SI32 12%Z)); FBlock false [] []; FBlock false [] []; FBlock false [] []; FBasic (BGet 1); FBasic (BConst (VI32 128%Z)); FBasic (BOp (SNum2 (B_irel W32 Ilt_u))); FBrIf 0; FBasic (BGet 1); FBasic (BConst (VI32 2048%Z)); FBasic (BOp (SNum2 (B_irel W32 Ilt_u))); FBrIf 1; FBlock false [] []; FBasic (BGet 1); FBasic (BConst (VI32 65536%Z)); FBasic (BOp (SNum2 (B_irel W32 Ilt_u))); FBrIf 0; FBasic (BGet 2); FBasic (BGet 1); FBasic (BConst (VI32 63%Z)); FBasic (BOp (SNum2 (B_int W32 Iand))); FBasic (BConst (VI32 128%Z)); FBasic (BOp (SNum2 (B_int W32 Ior))); FBasic (BOp (SStore SI32_8 15%Z)); FBasic (BGet 2); FBasic (BGet 1); FBasic (BConst (VI32 18%Z)); FBasic (BOp (SNum2 (B_int W32 Ishr_u))); FBasic (BConst (VI32 240%Z)); FBasic (BOp (SNum2 (B_int W32 Ior))); FBasic (BOp (SStore SI32_8 12%Z)); FBasic (BGet 2); FBasic (BGet 1); FBasic (BConst (VI32 6%Z)); FBasic (BOp (SNum2 (B_int W32 Ishr_u))); FBasic (BConst (VI32 63%Z)); FBasic (BOp (SNum2 (B_int W32 Iand))); FBasic (BConst (VI32 128%Z)); FBasic (BOp (SNum2 (B_int W32 Ior))); FBasic (BOp (SStore SI32_8 14%Z)); FBasic (BGet 2); FBasic (BGet 1); FBasic (BConst (VI32 12%Z)); FBasic (BOp (SNum2 (B_int W32 Ishr_u))); FBasic (BConst (VI32 63%Z)); FBasic (BOp (SNum2 (B_int W32 Iand))); FBasic (BConst (VI32 128%Z)); FBasic (BOp (SNum2 (B_int W32 Ior))); FBasic (BOp (SStore SI32_8 13%Z)); FBasic (BConst (VI32 4%Z)); FBasic (BSet 1); FBr 3; FEnd; FBasic (BGet 2); FBasic (BGet 1); FBasic (BConst (VI32 63%Z)); FBasic (BOp (SNum2 (B_int W32 Iand))); FBasic (BConst (VI32 128%Z)); FBasic (BOp (SNum2 (B_int W32 Ior))); FBasic (BOp (SStore SI32_8 14%Z)); FBasic (BGet 2); FBasic (BGet 1); FBasic (BConst (VI32 12%Z)); FBasic (BOp (SNum2 (B_int W32 Ishr_u))); FBasic (BConst (VI32 224%Z)); FBasic (BOp (SNum2 (B_int W32 Ior))); FBasic (BOp (SStore SI32_8 12%Z)); FBasic (BGet 2); FBasic (BGet 1); FBasic (BConst (VI32 6%Z)); FBasic (BOp (SNum2 (B_int W32 Ishr_u))); FBasic (BConst (VI32 63%Z)); FBasic (BOp (SNum2 (B_int W32 Iand))); FBasic (BConst (VI32 128%Z)); FBasic (BOp (SNum2 (B_int W32 Ior))); FBasic (BOp (SStore SI32_8 13%Z)); FBasic (BConst (VI32 3%Z)); FBasic (BSet 1); FBr 2; FEnd; FBasic (BGet 2); FBasic (BGet 1); FBasic (BOp (SStore SI32_8 12%Z)); FBasic (BConst (VI32 1%Z)); FBasic (BSet 1); FBr 1; FEnd; FBasic (BGet 2); FBasic (BGet 1); FBasic (BConst (VI32 63%Z)); FBasic (BOp (SNum2 (B_int W32 Iand))); FBasic (BConst (VI32 128%Z)); FBasic (BOp (SNum2 (B_int W32 Ior))); FBasic (BOp (SStore SI32_8 13%Z)); FBasic (BGet 2); FBasic (BGet 1); FBasic (BConst (VI32 6%Z)); FBasic (BOp (SNum2 (B_int W32 Ishr_u))); FBasic (BConst (VI32 192%Z)); FBasic (BOp (SNum2 (B_int W32 Ior))); FBasic (BOp (SStore SI32_8 12%Z)); FBasic (BConst (VI32 2%Z)); FBasic (BSet 1); FEnd; FBasic (BGet 0); FBasic (BGet 2); FBasic (BConst (VI32 12%Z)); FBasic (BOp (SNum2 (B_int W32 Iadd))); FBasic (BGet 1); FCall 38; FBasic (BSet 1); FBasic (BGet 2); FBasic (BConst (VI32 16%Z)); FBasic (BOp (SNum2 (B_int W32 Iadd))); FBasic (BOp (SGlobalSet TI32 0)); FBasic (BGet 1); FEnd]; b_bad := false |};
    PCode {| b_locals := [TI32; TI32; TI64; TI32]; b_badlocals := false; b_ops := [FBasic (BOp (SGlobalGet TI32 0)); FBasic (BConst (VI32 16%Z)); FBasic (BOp (SNum2 (B_int W32 Isub))); FBasic (BTee 3); FBasic (BOp (SGlobalSet TI32 0)); FBasic (BConst (VI32 0%Z)); FBasic (BSet 4); FBlock false [] []; FBlock false [] []; FBasic (BGet 2); FBasic (BOp (SNum1 (U_eqz W32))); FBrIf 0; FBlock true [] []; FBasic (BGet 3); FBasic (BGet 2); FBasic (BOp (SStore SI32 4%Z)); FBasic (BGet 3); FBasic (BGet 1); FBasic (BOp (SStore SI32 0%Z)); FBasic (BGet 3); FBasic (BConst (VI32 8%Z)); FBasic (BOp (SNum2 (B_int W32 Iadd))); FBasic (BConst (VI32 2%Z)); FBasic (BGet 3); FBasic (BConst (VI32 1%Z)); FCall 110; FBlock false [] []; FBlock false [] []; FBlock false [] []; FBlock false [] []; FBasic (BGet 3); FBasic (BOp (SLoad LI32_16u 8%Z)); FBasic (BConst (VI32 1%Z)); FBasic (BOp (SNum2 (B_irel W32 Ine))); FBrIf 0; FBasic (BGet 3); FBasic (BOp (SLoad LI64_16u 10%Z)); FBasic (BTee 5); FBasic (BConst (VI64 27%Z)); FBasic (BOp (SNum2 (B_irel W64 Ieq))); FBrIf 3; FBasic (BGet 5); FBasic (BConst (VI64 32%Z)); FBasic (BOp (SNum2 (B_int W64 Ishl))); FBasic (BSet 5); FBr 1; FEnd; FBasic (BGet 3); FBasic (BOp (SLoad LI32 12%Z)); FBasic (BTee 6); FBrIf 1; FBasic (BConst (VI32 0%Z)); FBasic (BOp (SLoad LI64 1051864%Z)); FBasic (BSet 5); FEnd; FBasic (BGet 5); FBasic (BConst (VI64 255%Z)); FBasic (BOp (SNum2 (B_int W64 Iand))); FBasic (BConst (VI64 4%Z)); FBasic (BOp (SNum2 (B_irel W64 Ieq))); FBrIf 3; FBasic (BGet 0); FBasic (BOp (SLoad LI32 4%Z)); FBasic (BSet 1); FBlock false [] []; FBlock false [] []; FBasic (BGet 0); FBasic (BOp (SLoad LI32_8u 0%Z)); FBasic (BTee 2); FBasic (BConst (VI32 4%Z)); FBasic (BOp (SNum2 (B_irel W32 Igt_u))); FBrIf 0; FBasic (BGet 2); FBasic (BConst (VI32 3%Z)); FBasic (BOp (SNum2 (B_irel W32 Ine))); FBrIf 1; FEnd; FBasic (BGet 1); FBasic (BOp (SLoad LI32 0%Z)); FBasic (BSet 6); FBlock false [] []; FBasic (BGet 1); FBasic (BConst (VI32 4%Z)); FBasic (BOp (SNum2 (B_int W32 Iadd))); FBasic (BOp (SLoad LI32 0%Z)); FBasic (BTee 2); FBasic (BOp (SLoad LI32 0%Z)); FBasic (BTee 4); FBasic (BOp (SNum1 (U_eqz W32))); FBrIf 0; FBasic (BGet 6); FBasic (BGet 4); FCallInd 1 0; FEnd; FBlock false [] []; FBasic (BGet 2); FBasic (BOp (SLoad LI32 4%Z)); FBasic (BTee 4); FBasic (BOp (SNum1 (U_eqz W32))); FBrIf 0; FBasic (BGet 6); FBasic (BGet 4); FBasic (BGet 2); FBasic (BOp (SLoad LI32 8%Z)); FCall 19; FEnd; FBasic (BGet 1); FBasic (BConst (VI32 12%Z)); FBasic (BConst (VI32 4%Z)); FCall 19; FEnd; FBasic (BGet 0); FBasic (BGet 5); FBasic (BOp (SStore SI64 0%Z)); FBasic (BConst (VI32 1%Z)); FBasic (BSet 4); FBr 3; FEnd; FBasic (BGet 2); FBasic (BGet 6); FBasic (BOp (SNum2 (B_irel W32 Ilt_u))); FBrIf 3; FBasic (BGet 1); FBasic (BGet 6); FBasic (BOp (SNum2 (B_int W32 Iadd))); FBasic (BSet 1); FBasic (BGet 2); FBasic (BGet 6); FBasic (BOp (SNum2 (B_int W32 Isub))); FBasic (BSet 2); FEnd; FBasic (BGet 2); FBrIf 0; FEnd; FEnd; FBasic (BGet 3); FBasic (BConst (VI32 16%Z)); FBasic (BOp (SNum2 (B_int W32 Iadd))); FBasic (BOp (SGlobalSet TI32 0)); FBasic (BGet 4); FReturn; FEnd; FBasic (BGet 6); FBasic (BGet 2); FBasic (BConst (VI32 1052232%Z)); FCall 148; FUnreachable; FEnd]; b_bad := false |};
    PCode {| b_locals := []; b_badlocals := false; b_ops := [FBasic (BGet 0); FBasic (BConst (VI32 1051436%Z)); FBasic (BGet 1); FCall 153; FEnd]; b_bad := false |};
    PCode {| b_locals := []; b_badlocals := false; b_ops := [FBasic (BGet 0); FBasic (BConst (VI32 1051460%Z)); FBasic (BGet 1); FCall 153; FEnd]; b_bad := false |};
    PCode {| b_locals := []; b_badlocals := false; b_ops := [FBasic (BGet 0); FBasic (BConst (VI32 1051412%Z)); FBasic (BGet 1); FCall 153; FEnd]; b_bad := false |};
    PCode {| b_locals := []; b_badlocals := false; b_ops := [FBasic (BGet 0); FBasic (BConst (VI32 1051484%Z)); FBasic (BGet 1); FCall 153; FEnd]; b_bad := false |};
    PCode {| b_locals := [TI32; TI32]; b_badlocals := false; b_ops := [FBasic (BOp (SGlobalGet TI32 0)); FBasic (BConst (VI32 80%Z)); FBasic (BOp (SNum2 (B_int W32 Isub))); FBasic (BTee 1); FBasic (BOp (SGlobalSet TI32 0)); FBasic (BConst (VI32 3%Z)); FBasic (BSet 2); FBlock false [] []; FBasic (BGet 0); FBasic (BOp (SLoad LI32_8u 13%Z)); FBrIf 0; FBasic (BConst (VI32 1%Z)); FBasic (BSet 2); FBasic (BConst (VI32 0%Z)); FBasic (BOp (SLoad LI32 1057296%Z)); FBasic (BConst (VI32 1%Z)); FBasic (BOp (SNum2 (B_irel W32 Igt_u))); FBrIf 0; FCall 77; FBasic (BConst (VI32 255%Z)); FBasic (BOp (SNum2 (B_int W32 Iand))); FBasic (BSet 2); FEnd; FBasic (BGet 1); FBasic (BGet 2); FBasic (BOp (SStore SI32_8 15%Z)); FBasic (BGet 1); FBasic (BGet 0); FBasic (BOp (SLoad LI32 8%Z)); FBasic (BOp (SStore SI32 16%Z)); FBasic (BGet 1); FBasic (BGet 0); FBasic (BOp (SLoad LI32 0%Z)); FBasic (BGet 0); FBasic (BOp (SLoad LI32 4%Z)); FCall 89; FBasic (BGet 1); FBasic (BGet 1); FBasic (BOp (SLoad LI64 0%Z)); FBasic (BOp (SStore SI64 20%Z)); FBasic (BGet 1); FBasic (BGet 1); FBasic (BConst (VI32 15%Z)); FBasic (BOp (SNum2 (B_int W32 Iadd))); FBasic (BOp (SStore SI32 36%Z)); FBasic (BGet 1); FBasic (BGet 1); FBasic (BConst (VI32 20%Z)); FBasic (BOp (SNum2 (B_int W32 Iadd))); FBasic (BOp (SStore SI32 32%Z)); FBasic (BGet 1); FBasic (BGet 1); FBasic (BConst (VI32 16%Z)); FBasic (BOp (SNum2 (B_int W32 Iadd))); FBasic (BOp (SStore SI32 28%Z)); FBlock false [] []; FBlock false [] []; FBlock false [] []; FBlock false [] []; FBlock false [] []; FBasic (BConst (VI32 0%Z)); FBasic (BOp (SLoad LI32_8u 1057199%Z)); FBrIf 0; FBasic (BGet 1); FBasic (BConst (VI64 0%Z)); FBasic (BOp (SStore SI64 40%Z)); FBr 1; FEnd; FBasic (BConst (VI32 0%Z)); FBasic (BConst (VI32 1%Z)); FBasic (BOp (SStore SI32_8 1057199%Z)); FBasic (BGet 1); FBasic (BConst (VI32 0%Z)); FBasic (BOp (SStore SI32 40%Z)); FBasic (BConst (VI32 0%Z)); FBasic (BOp (SLoad LI32 1057304%Z)); FBasic (BSet 0); FBasic (BConst (VI32 0%Z)); FBasic (BConst (VI32 0%Z)); FBasic (BOp (SStore SI32 1057304%Z)); FBasic (BGet 1); FBasic (BGet 0); FBasic (BOp (SStore SI32 44%Z)); FBasic (BGet 0); FBrIf 1; FEnd; FBasic (BGet 1); FBasic (BConst (VI32 40%Z)); FBasic (BOp (SNum2 (B_int W32 Iadd))); FCall 45; FBasic (BGet 1); FBasic (BConst (VI32 28%Z)); FBasic (BOp (SNum2 (B_int W32 Iadd))); FBasic (BGet 1); FBasic (BConst (VI32 79%Z)); FBasic (BOp (SNum2 (B_int W32 Iadd))); FBasic (BConst (VI32 1052764%Z)); FCall 90; FBr 1; FEnd; FBasic (BGet 0); FBasic (BOp (SLoad LI32_8u 8%Z)); FBasic (BSet 2); FBasic (BGet 0); FBasic (BConst (VI32 1%Z)); FBasic (BOp (SStore SI32_8 8%Z)); FBasic (BGet 1); FBasic (BGet 2); FBasic (BOp (SStore SI32_8 51%Z)); FBasic (BGet 2); FBasic (BConst (VI32 1%Z)); FBasic (BOp (SNum2 (B_irel W32 Ieq))); FBrIf 1; FBasic (BGet 1); FBasic (BConst (VI32 28%Z)); FBasic (BOp (SNum2 (B_int W32 Iadd))); FBasic (BGet 0); FBasic (BConst (VI32 12%Z)); FBasic (BOp (SNum2 (B_int W32 Iadd))); FBasic (BConst (VI32 1052724%Z)); FCall 90; FBasic (BGet 0); FBasic (BConst (VI32 0%Z)); FBasic (BOp (SStore SI32_8 8%Z)); FBasic (BConst (VI32 0%Z)); FBasic (BConst (VI32 1%Z)); FBasic (BOp (SStore SI32_8 1057199%Z)); FBasic (BConst (VI32 0%Z)); FBasic (BOp (SLoad LI32 1057304%Z)); FBasic (BSet 2); FBasic (BConst (VI32 0%Z)); FBasic (BGet 0); FBasic (BOp (SStore SI32 1057304%Z)); FBasic (BGet 1); FBasic (BGet 2); FBasic (BOp (SStore SI32 56%Z)); FBasic (BGet 1); FBasic (BConst (VI32 1%Z)); FBasic (BOp (SStore SI32 52%Z)); FBasic (BGet 2); FBasic (BOp (SNum1 (U_eqz W32))); FBrIf 0; FBasic (BGet 2); FBasic (BGet 2); FBasic (BOp (SLoad LI32 0%Z)); FBasic (BTee 0); FBasic (BConst (VI32 (-1)%Z)); FBasic (BOp (SNum2 (B_int W32 Iadd))); FBasic (BOp (SStore SI32 0%Z)); FBasic (BGet 0); FBasic (BConst (VI32 1%Z)); FBasic (BOp (SNum2 (B_irel W32 Ine))); FBrIf 0; FBasic (BGet 1); FBasic (BConst (VI32 56%Z)); FBasic (BOp (SNum2 (B_int W32 Iadd))); FCall 46; FEnd; FBasic (BGet 1); FBasic (BConst (VI32 80%Z)); FBasic (BOp (SNum2 (B_int W32 Iadd))); FBasic (BOp (SGlobalSet TI32 0)); FReturn; FEnd; FBasic (BGet 1); FBasic (BConst (VI64 0%Z)); FBasic (BOp (SStore SI64 64%Z)); FBasic (BGet 1); FBasic (BConst (VI64 17179869185%Z)); FBasic (BOp (SStore SI64 56%Z)); FBasic (BGet 1); FBasic (BConst (VI32 1052296%Z)); FBasic (BOp (SStore SI32 52%Z)); FBasic (BConst (VI32 0%Z)); FBasic (BGet 1); FBasic (BConst (VI32 51%Z)); FBasic (BOp (SNum2 (B_int W32 Iadd))); FBasic (BConst (VI32 1053592%Z)); FBasic (BGet 1); FBasic (BConst (VI32 52%Z)); FBasic (BOp (SNum2 (B_int W32 Iadd))); FBasic (BConst (VI32 1052348%Z)); FCall 52; FUnreachable; FEnd]; b_bad := false |};
    PCode {| b_locals := [TI32; TI32; TI32]; b_badlocals := false; b_ops := [FBasic (BGet 0); FBasic (BOp (SLoad LI32 4%Z)); FBasic (BSet 1); FBlock false [] []; FBlock false [] []; FBasic (BGet 0); FBasic (BOp (SLoad LI32_8u 0%Z)); FBasic (BTee 0); FBasic (BConst (VI32 4%Z)); FBasic (BOp (SNum2 (B_irel W32 Igt_u))); FBrIf 0; FBasic (BGet 0); FBasic (BConst (VI32 3%Z)); FBasic (BOp (SNum2 (B_irel W32 Ine))); FBrIf 1; FEnd; FBasic (BGet 1); FBasic (BOp (SLoad LI32 0%Z)); FBasic (BSet 2); FBlock false [] []; FBasic (BGet 1); FBasic (BConst (VI32 4%Z)); FBasic (BOp (SNum2 (B_int W32 Iadd))); FBasic (BOp (SLoad LI32 0%Z)); FBasic (BTee 0); FBasic (BOp (SLoad LI32 0%Z)); FBasic (BTee 3); FBasic (BOp (SNum1 (U_eqz W32))); FBrIf 0; FBasic (BGet 2); FBasic (BGet 3); FCallInd 1 0; FEnd; FBlock false [] []; FBasic (BGet 0); FBasic (BOp (SLoad LI32 4%Z)); FBasic (BTee 3); FBasic (BOp (SNum1 (U_eqz W32))); FBrIf 0; FBasic (BGet 2); FBasic (BGet 3); FBasic (BGet 0); FBasic (BOp (SLoad LI32 8%Z)); FCall 19; FEnd; FBasic (BGet 1); FBasic (BConst (VI32 12%Z)); FBasic (BConst (VI32 4%Z)); FCall 19; FEnd; FEnd]; b_bad := false |};
    PCode {| b_locals := [TI32; TI32]; b_badlocals := false; b_ops := [FBlock false [] []; FBasic (BGet 0); FBasic (BOp (SLoad LI32 0%Z)); FBrIf 0; FBasic (BGet 0); FBasic (BOp (SLoad LI32 4%Z)); FBasic (BTee 1); FBasic (BOp (SNum1 (U_eqz W32))); FBrIf 0; FBasic (BGet 1); FBasic (BGet 1); FBasic (BOp (SLoad LI32 0%Z)); FBasic (BTee 2); FBasic (BConst (VI32 (-1)%Z)); FBasic (BOp (SNum2 (B_int W32 Iadd))); FBasic (BOp (SStore SI32 0%Z)); FBasic (BGet 2); FBasic (BConst (VI32 1%Z)); FBasic (BOp (SNum2 (B_irel W32 Ine))); FBrIf 0; FBasic (BGet 0); FBasic (BConst (VI32 4%Z)); FBasic (BOp (SNum2 (B_int W32 Iadd))); FCall 46; FEnd; FEnd]; b_bad := false |};
    PCode {| b_locals := [TI32]; b_badlocals := false; b_ops := [FBlock false [] []; FBasic (BGet 0); FBasic (BOp (SLoad LI32 0%Z)); FBasic (BTee 0); FBasic (BConst (VI32 12%Z)); FBasic (BOp (SNum2 (B_int W32 Iadd))); FBasic (BOp (SLoad LI32 0%Z)); FBasic (BTee 1); FBasic (BOp (SNum1 (U_eqz W32))); FBrIf 0; FBasic (BGet 0); FBasic (BConst (VI32 16%Z)); FBasic (BOp (SNum2 (B_int W32 Iadd))); FBasic (BOp (SLoad LI32 0%Z)); FBasic (BGet 1); FBasic (BConst (VI32 1%Z)); FCall 19; FEnd; FBlock false [] []; FBasic (BGet 0); FBasic (BConst (VI32 (-1)%Z)); FBasic (BOp (SNum2 (B_irel W32 Ieq))); FBrIf 0; FBasic (BGet 0); FBasic (BGet 0); FBasic (BOp (SLoad LI32 4%Z)); FBasic (BTee 1); FBasic (BConst (VI32 (-1)%Z)); FBasic (BOp (SNum2 (B_int W32 Iadd))); FBasic (BOp (SStore SI32 4%Z)); FBasic (BGet 1); FBasic (BConst (VI32 1%Z)); FBasic (BOp (SNum2 (B_irel W32 Ine))); FBrIf 0; FBasic (BGet 0); FBasic (BConst (VI32 24%Z)); FBasic (BConst (VI32 4%Z)); FCall 19; FEnd; FEnd]; b_bad := false |};
    PCode {| b_locals := [TI32]; b_badlocals := false; b_ops := [FBlock false [] []; FBasic (BGet 0); FBasic (BOp (SLoad LI32 0%Z)); FBasic (BTee 1); FBasic (BOp (SNum1 (U_eqz W32))); FBrIf 0; FBasic (BGet 0); FBasic (BOp (SLoad LI32 4%Z)); FBasic (BGet 1); FBasic (BConst (VI32 1%Z)); FCall 19; FEnd; FEnd]; b_bad := false |};
    PCode {| b_locals := [TI32]; b_badlocals := false; b_ops := [FBlock false [] []; FBasic (BGet 0); FBasic (BOp (SLoad LI32 0%Z)); FBasic (BTee 1); FBasic (BOp (SNum1 (U_eqz W32))); FBrIf 0; FBasic (BGet 0); FBasic (BOp (SLoad LI32 4%Z)); FBasic (BGet 1); FBasic (BConst (VI32 1%Z)); FCall 19; FEnd; FEnd]; b_bad := false |};
    PCode {| b_locals := [TI32]; b_badlocals := false; b_ops := [FBlock false [] []; FBasic (BGet 0); FBasic (BOp (SLoad LI32 0%Z)); FBasic (BTee 1); FBasic (BConst (VI32 (-2147483648)%Z)); FBasic (BOp (SNum2 (B_int W32 Ior))); FBasic (BConst (VI32 (-2147483648)%Z)); FBasic (BOp (SNum2 (B_irel W32 Ieq))); FBrIf 0; FBasic (BGet 0); FBasic (BOp (SLoad LI32 4%Z)); FBasic (BGet 1); FBasic (BConst (VI32 1%Z)); FCall 19; FEnd; FEnd]; b_bad := false |};
    PCode {| b_locals := [TI32; TI32]; b_badlocals := false; b_ops := [FBlock false [] []; FBlock false [] []; FBasic (BGet 0); FBasic (BConst (VI32 255%Z)); FBasic (BOp (SNum2 (B_int W32 Iand))); FBasic (BTee 0); FBasic (BConst (VI32 4%Z)); FBasic (BOp (SNum2 (B_irel W32 Igt_u))); FBrIf 0; FBasic (BGet 0); FBasic (BConst (VI32 3%Z)); FBasic (BOp (SNum2 (B_irel W32 Ine))); FBrIf 1; FEnd; FBasic (BGet 1); FBasic (BOp (SLoad LI32 0%Z)); FBasic (BSet 2); FBlock false [] []; FBasic (BGet 1); FBasic (BConst (VI32 4%Z)); FBasic (BOp (SNum2 (B_int W32 Iadd))); FBasic (BOp (SLoad LI32 0%Z)); FBasic (BTee 0); FBasic (BOp (SLoad LI32 0%Z)); FBasic (BTee 3); FBasic (BOp (SNum1 (U_eqz W32))); FBrIf 0; FBasic (BGet 2); FBasic (BGet 3); FCallInd 1 0; FEnd; FBlock false [] []; FBasic (BGet 0); FBasic (BOp (SLoad LI32 4%Z)); FBasic (BTee 3); FBasic (BOp (SNum1 (U_eqz W32))); FBrIf 0; FBasic (BGet 2); FBasic (BGet 3); FBasic (BGet 0); FBasic (BOp (SLoad LI32 8%Z)); FCall 19; FEnd; FBasic (BGet 1); FBasic (BConst (VI32 12%Z)); FBasic (BConst (VI32 4%Z)); FCall 19; FEnd; FEnd]; b_bad := false |};
    PCode {| b_locals := []; b_badlocals := false; b_ops := [FBasic (BGet 0); FBasic (BConst (VI32 0%Z)); FBasic (BOp (SStore SI32 0%Z)); FEnd]; b_bad := false |};
    PCode {| b_locals := [TI32]; b_badlocals := false; b_ops := [FBasic (BOp (SGlobalGet TI32 0)); FBasic (BConst (VI32 16%Z)); FBasic (BOp (SNum2 (B_int W32 Isub))); FBasic (BTee 5); FBasic (BOp (SGlobalSet TI32 0)); FBasic (BGet 5); FBasic (BGet 2); FBasic (BOp (SStore SI32 12%Z)); FBasic (BGet 5); FBasic (BGet 1); FBasic (BOp (SStore SI32 8%Z)); FBasic (BGet 0); FBasic (BGet 5); FBasic (BConst (VI32 8%Z)); FBasic (BOp (SNum2 (B_int W32 Iadd))); FBasic (BConst (VI32 1051180%Z)); FBasic (BGet 5); FBasic (BConst (VI32 12%Z)); FBasic (BOp (SNum2 (B_int W32 Iadd))); FBasic (BConst (VI32 1051180%Z)); FBasic (BGet 3); FBasic (BGet 4); FCall 174; FUnreachable; FEnd]; b_bad := false |};
    PCode {| b_locals := []; b_badlocals := false; b_ops := [FBasic (BGet 0); FBasic (BOp (SLoad LI32 0%Z)); FBasic (BGet 1); FBasic (BGet 0); FBasic (BOp (SLoad LI32 4%Z)); FBasic (BOp (SLoad LI32 12%Z)); FCallInd 2 0; FEnd]; b_bad := false |};
    PCode {| b_locals := [TI32; TI32; TI32]; b_badlocals := false; b_ops := [FBasic (BGet 0); FBasic (BOp (SLoad LI32 8%Z)); FBasic (BSet 2); FBlock false [] []; FBlock false [] []; FBasic (BGet 1); FBasic (BConst (VI32 128%Z)); FBasic (BOp (SNum2 (B_irel W32 Ige_u))); FBrIf 0; FBasic (BConst (VI32 1%Z)); FBasic (BSet 3); FBr 1; FEnd; FBlock false [] []; FBasic (BGet 1); FBasic (BConst (VI32 2048%Z)); FBasic (BOp (SNum2 (B_irel W32 Ige_u))); FBrIf 0; FBasic (BConst (VI32 2%Z)); FBasic (BSet 3); FBr 1; FEnd; FBasic (BConst (VI32 3%Z)); FBasic (BConst (VI32 4%Z)); FBasic (BGet 1); FBasic (BConst (VI32 65536%Z)); FBasic (BOp (SNum2 (B_irel W32 Ilt_u))); FBasic (BSelect None); FBasic (BSet 3); FEnd; FBasic (BGet 2); FBasic (BSet 4); FBlock false [] []; FBasic (BGet 3); FBasic (BGet 0); FBasic (BOp (SLoad LI32 0%Z)); FBasic (BGet 2); FBasic (BOp (SNum2 (B_int W32 Isub))); FBasic (BOp (SNum2 (B_irel W32 Ile_u))); FBrIf 0; FBasic (BGet 0); FBasic (BGet 2); FBasic (BGet 3); FBasic (BConst (VI32 1%Z)); FBasic (BConst (VI32 1%Z)); FCall 35; FBasic (BGet 0); FBasic (BOp (SLoad LI32 8%Z)); FBasic (BSet 4); FEnd; FBasic (BGet 0); FBasic (BOp (SLoad LI32 4%Z)); FBasic (BGet 4); FBasic (BOp (SNum2 (B_int W32 Iadd))); FBasic (BSet 4); FBlock false [] []; FBlock false [] []; FBlock false [] []; FBasic (BGet 1); FBasic (BConst (VI32 128%Z)); FBasic (BOp (SNum2 (B_irel W32 Ilt_u))); FBrIf 0; FBasic (BGet 1); FBasic (BConst (VI32 2048%Z)); FBasic (BOp (SNum2 (B_irel W32 Ilt_u))); FBrIf 1; FBlock false [] []; FBasic (BGet 1); FBasic (BConst (VI32 65536%Z)); FBasic (BOp (SNum2 (B_irel W32 Ilt_u))); FBrIf 0; FBasic (BGet 4); FBasic (BGet 1); FBasic (BConst (VI32 63%Z)); FBasic (BOp (SNum2 (B_int W32 Iand))); FBasic (BConst (VI32 128%Z)); FBasic (BOp (SNum2 (B_int W32 Ior))); FBasic (BOp (SStore SI32_8 3%Z)); FBasic (BGet 4); FBasic (BGet 1); FBasic (BConst (VI32 18%Z)); FBasic (BOp (SNum2 (B_int W32 Ishr_u))); FBasic (BConst (VI32 240%Z)); FBasic (BOp (SNum2 (B_int W32 Ior))); FBasic (BOp (SStore SI32_8 0%Z)); FBasic (BGet 4); FBasic (BGet 1); FBasic (BConst (VI32 6%Z)); FBasic (BOp (SNum2 (B_int W32 Ishr_u))); FBasic (BConst (VI32 63%Z)); FBasic (BOp (SNum2 (B_int W32 Iand))); FBasic (BConst (VI32 128%Z)); FBasic (BOp (SNum2 (B_int W32 Ior))); FBasic (BOp (SStore SI32_8 2%Z)); FBasic (BGet 4); FBasic (BGet 1); FBasic (BConst (VI32 12%Z)); FBasic (BOp (SNum2 (B_int W32 Ishr_u))); FBasic (BConst (VI32 63%Z)); FBasic (BOp (SNum2 (B_int W32 Iand))); FBasic (BConst (VI32 128%Z)); FBasic (BOp (SNum2 (B_int W32 Ior))); FBasic (BOp (SStore SI32_8 1%Z)); FBr 3; FEnd; FBasic (BGet 4); FBasic (BGet 1); FBasic (BConst (VI32 63%Z)); FBasic (BOp (SNum2 (B_int W32 Iand))); FBasic (BConst (VI32 128%Z)); FBasic (BOp (SNum2 (B_int W32 Ior))); FBasic (BOp (SStore SI32_8 2%Z)); FBasic (BGet 4); FBasic (BGet 1); FBasic (BConst (VI32 12%Z)); FBasic (BOp (SNum2 (B_int W32 Ishr_u))); FBasic (BConst (VI32 224%Z)); FBasic (BOp (SNum2 (B_int W32 Ior))); FBasic (BOp (SStore SI32_8 0%Z)); FBasic (BGet 4); FBasic (BGet 1); FBasic (BConst (VI32 6%Z)); FBasic (BOp (SNum2 (B_int W32 Ishr_u))); FBasic (BConst (VI32 63%Z)); FBasic (BOp (SNum2 (B_int W32 Iand))); FBasic (BConst (VI32 128%Z)); FBasic (BOp (SNum2 (B_int W32 Ior))); FBasic (BOp (SStore SI32_8 1%Z)); FBr 2; FEnd; FBasic (BGet 4); FBasic (BGet 1); FBasic (BOp (SStore SI32_8 0%Z)); FBr 1; FEnd; FBasic (BGet 4); FBasic (BGet 1); FBasic (BConst (VI32 63%Z)); FBasic (BOp (SNum2 (B_int W32 Iand))); FBasic (BConst (VI32 128%Z)); FBasic (BOp (SNum2 (B_int W32 Ior))); FBasic (BOp (SStore SI32_8 1%Z)); FBasic (BGet 4); FBasic (BGet 1); FBasic (BConst (VI32 6%Z)); FBasic (BOp (SNum2 (B_int W32 Ishr_u))); FBasic (BConst (VI32 192%Z)); FBasic (BOp (SNum2 (B_int W32 Ior))); FBasic (BOp (SStore SI32_8 0%Z)); FEnd; FBasic (BGet 0); FBasic (BGet 3); FBasic (BGet 2); FBasic (BOp (SNum2 (B_int W32 Iadd))); FBasic (BOp (SStore SI32 8%Z)); FBasic (BConst (VI32 0%Z)); FEnd]; b_bad := false |};
    PCode {| b_locals := [TI32]; b_badlocals := false; b_ops := [FBlock false [] []; FBasic (BGet 2); FBasic (BGet 0); FBasic (BOp (SLoad LI32 0%Z)); FBasic (BGet 0); FBasic (BOp (SLoad LI32 8%Z)); FBasic (BTee 3); FBasic (BOp (SNum2 (B_int W32 Isub))); FBasic (BOp (SNum2 (B_irel W32 Ile_u))); FBrIf 0; FBasic (BGet 0); FBasic (BGet 3); FBasic (BGet 2); FBasic (BConst (VI32 1%Z)); FBasic (BConst (VI32 1%Z)); FCall 35; FBasic (BGet 0); FBasic (BOp (SLoad LI32 8%Z)); FBasic (BSet 3); FEnd; FBlock false [] []; FBasic (BGet 2); FBasic (BOp (SNum1 (U_eqz W32))); FBrIf 0; FBasic (BGet 0); FBasic (BOp (SLoad LI32 4%Z)); FBasic (BGet 3); FBasic (BOp (SNum2 (B_int W32 Iadd))); FBasic (BGet 1); FBasic (BGet 2); FBasic (BOp SMemCopy); FEnd; FBasic (BGet 0); FBasic (BGet 3); FBasic (BGet 2); FBasic (BOp (SNum2 (B_int W32 Iadd))); FBasic (BOp (SStore SI32 8%Z)); FBasic (BConst (VI32 0%Z)); FEnd]; b_bad := false |};
    PCode {| b_locals := [TI32]; b_badlocals := false; b_ops := [FBlock false [] []; FBasic (BGet 2); FBasic (BConst (VI32 0%Z)); FBasic (BOp (SNum2 (B_irel W32 Ilt_s))); FBrIf 0; FBlock false [] []; FBlock false [] []; FBlock false [] []; FBasic (BGet 3); FBasic (BOp (SLoad LI32 4%Z)); FBasic (BOp (SNum1 (U_eqz W32))); FBrIf 0; FBlock false [] []; FBasic (BGet 3); FBasic (BOp (SLoad LI32 8%Z)); FBasic (BTee 4); FBrIf 0; FBlock false [] []; FBasic (BGet 2); FBrIf 0; FBasic (BGet 1); FBasic (BSet 3); FBr 4; FEnd; FBasic (BConst (VI32 0%Z)); FBasic (BOp (SLoad LI32_8u 1057197%Z)); FBasic BDrop; FBr 2; FEnd; FBasic (BGet 3); FBasic (BOp (SLoad LI32 0%Z)); FBasic (BGet 4); FBasic (BGet 1); FBasic (BGet 2); FCall 20; FBasic (BSet 3); FBr 2; FEnd; FBlock false [] []; FBasic (BGet 2); FBrIf 0; FBasic (BGet 1); FBasic (BSet 3); FBr 2; FEnd; FBasic (BConst (VI32 0%Z)); FBasic (BOp (SLoad LI32_8u 1057197%Z)); FBasic BDrop; FEnd; FBasic (BGet 2); FBasic (BGet 1); FCall 18; FBasic (BSet 3); FEnd; FBlock false [] []; FBasic (BGet 3); FBrIf 0; FBasic (BGet 0); FBasic (BGet 2); FBasic (BOp (SStore SI32 8%Z)); FBasic (BGet 0); FBasic (BGet 1); FBasic (BOp (SStore SI32 4%Z)); FBasic (BGet 0); FBasic (BConst (VI32 1%Z)); FBasic (BOp (SStore SI32 0%Z)); FReturn; FEnd; FBasic (BGet 0); FBasic (BGet 2); FBasic (BOp (SStore SI32 8%Z)); FBasic (BGet 0); FBasic (BGet 3); FBasic (BOp (SStore SI32 4%Z)); FBasic (BGet 0); FBasic (BConst (VI32 0%Z)); FBasic (BOp (SStore SI32 0%Z)); FReturn; FEnd; FBasic (BGet 0); FBasic (BConst (VI32 0%Z)); FBasic (BOp (SStore SI32 4%Z)); FBasic (BGet 0); FBasic (BConst (VI32 1%Z)); FBasic (BOp (SStore SI32 0%Z)); FEnd]; b_bad := false |};
    PCode {| b_locals := [TI32; TI32; TI64; TI64; TI64; TI32; TI32; TI32; TI32; TI32]; b_badlocals := false; b_ops := [FBasic (BOp (SGlobalGet TI32 0)); FBasic (BConst (VI32 48%Z)); FBasic (BOp (SNum2 (B_int W32 Isub))); FBasic (BTee 1); FBasic (BOp (SGlobalSet TI32 0)); FBlock false [] []; FBlock false [] []; FBlock false [] []; FBlock false [] []; FBlock false [] []; FBlock false [] []; FBlock false [] []; FBlock false [] []; FBlock false [] []; FBlock false [] []; FBasic (BConst (VI32 0%Z)); FBasic (BOp (SLoad LI32_8u 1057198%Z)); FBrTable [0; 2; 1; 9] 0; FEnd; FBasic (BConst (VI32 0%Z)); FBasic (BConst (VI32 2%Z)); FBasic (BOp (SStore SI32_8 1057198%Z)); FBasic (BGet 0); FBasic (BOp (SLoad LI32_8u 0%Z)); FBasic (BSet 2); FBasic (BGet 0); FBasic (BConst (VI32 0%Z)); FBasic (BOp (SStore SI32_8 0%Z)); FBlock false [] []; FBasic (BGet 2); FBasic (BConst (VI32 1%Z)); FBasic (BOp (SNum2 (B_irel W32 Ine))); FBrIf 0; FBasic (BGet 1); FBasic (BConst (VI32 0%Z)); FBasic (BOp (SStore SI32_8 39%Z)); FBlock false [] []; FBasic (BConst (VI32 0%Z)); FBasic (BOp (SLoad LI32_8u 1057240%Z)); FBasic (BConst (VI32 3%Z)); FBasic (BOp (SNum2 (B_irel W32 Ieq))); FBrIf 0; FBasic (BGet 1); FBasic (BConst (VI32 39%Z)); FBasic (BOp (SNum2 (B_int W32 Iadd))); FCall 79; FBasic (BGet 1); FBasic (BOp (SLoad LI32_8u 39%Z)); FBasic (BConst (VI32 1%Z)); FBasic (BOp (SNum2 (B_int W32 Iand))); FBrIf 9; FEnd; FBlock false [] []; FBasic (BConst (VI32 0%Z)); FBasic (BOp (SLoad LI64 1057272%Z)); FBasic (BTee 3); FBasic (BConst (VI64 0%Z)); FBasic (BOp (SNum2 (B_irel W64 Ine))); FBrIf 0; FBasic (BConst (VI32 0%Z)); FBasic (BOp (SLoad LI64 1057280%Z)); FBasic (BSet 4); FBlock true [] []; FBasic (BGet 4); FBasic (BConst (VI64 (-1)%Z)); FBasic (BOp (SNum2 (B_irel W64 Ieq))); FBrIf 5; FBasic (BConst (VI32 0%Z)); FBasic (BGet 4); FBasic (BConst (VI64 1%Z)); FBasic (BOp (SNum2 (B_int W64 Iadd))); FBasic (BTee 3); FBasic (BConst (VI32 0%Z)); FBasic (BOp (SLoad LI64 1057280%Z)); FBasic (BTee 5); FBasic (BGet 5); FBasic (BGet 4); FBasic (BOp (SNum2 (B_irel W64 Ieq))); FBasic (BTee 0); FBasic (BSelect None); FBasic (BOp (SStore SI64 1057280%Z)); FBasic (BGet 5); FBasic (BSet 4); FBasic (BGet 0); FBasic (BOp (SNum1 (U_eqz W32))); FBrIf 0; FEnd; FBasic (BConst (VI32 0%Z)); FBasic (BGet 3); FBasic (BOp (SStore SI64 1057272%Z)); FEnd; FBlock false [] []; FBlock false [] []; FBasic (BGet 3); FBasic (BConst (VI32 0%Z)); FBasic (BOp (SLoad LI64 1057200%Z)); FBasic (BOp (SNum2 (B_irel W64 Ieq))); FBrIf 0; FBasic (BConst (VI32 0%Z)); FBasic (BOp (SLoad LI32_8u 1057212%Z)); FBasic (BSet 2); FBasic (BConst (VI32 1%Z)); FBasic (BSet 0); FBasic (BConst (VI32 0%Z)); FBasic (BConst (VI32 1%Z)); FBasic (BOp (SStore SI32_8 1057212%Z)); FBasic (BGet 2); FBrIf 10; FBasic (BConst (VI32 0%Z)); FBasic (BGet 3); FBasic (BOp (SStore SI64 1057200%Z)); FBr 1; FEnd; FBasic (BConst (VI32 0%Z)); FBasic (BOp (SLoad LI32 1057208%Z)); FBasic (BTee 0); FBasic (BConst (VI32 (-1)%Z)); FBasic (BOp (SNum2 (B_irel W32 Ieq))); FBrIf 9; FBasic (BGet 0); FBasic (BConst (VI32 1%Z)); FBasic (BOp (SNum2 (B_int W32 Iadd))); FBasic (BSet 0); FEnd; FBasic (BConst (VI32 0%Z)); FBasic (BGet 0); FBasic (BOp (SStore SI32 1057208%Z)); FBasic (BConst (VI32 0%Z)); FBasic (BOp (SLoad LI32 1057216%Z)); FBrIf 4; FBasic (BConst (VI32 0%Z)); FBasic (BConst (VI32 (-1)%Z)); FBasic (BOp (SStore SI32 1057216%Z)); FBasic (BConst (VI32 0%Z)); FBasic (BOp (SLoad LI32_8u 1057232%Z)); FBrIf 7; FBasic (BConst (VI32 0%Z)); FBasic (BSet 0); FBasic (BConst (VI32 0%Z)); FBasic (BOp (SLoad LI32 1057228%Z)); FBasic (BTee 6); FBasic (BOp (SNum1 (U_eqz W32))); FBrIf 7; FBasic (BConst (VI32 0%Z)); FBasic (BOp (SLoad LI32 1057224%Z)); FBasic (BSet 7); FBlock true [] []; FBasic (BGet 1); FBasic (BGet 6); FBasic (BGet 0); FBasic (BOp (SNum2 (B_int W32 Isub))); FBasic (BTee 8); FBasic (BOp (SStore SI32 44%Z)); FBasic (BGet 1); FBasic (BGet 7); FBasic (BGet 0); FBasic (BOp (SNum2 (B_int W32 Iadd))); FBasic (BTee 9); FBasic (BOp (SStore SI32 40%Z)); FBasic (BGet 1); FBasic (BConst (VI32 12%Z)); FBasic (BOp (SNum2 (B_int W32 Iadd))); FBasic (BConst (VI32 1%Z)); FBasic (BGet 1); FBasic (BConst (VI32 40%Z)); FBasic (BOp (SNum2 (B_int W32 Iadd))); FBasic (BConst (VI32 1%Z)); FCall 110; FBlock false [] []; FBlock false [] []; FBlock false [] []; FBlock false [] []; FBlock false [] []; FBasic (BGet 1); FBasic (BOp (SLoad LI32_16u 12%Z)); FBasic (BConst (VI32 1%Z)); FBasic (BOp (SNum2 (B_irel W32 Ine))); FBrIf 0; FBasic (BGet 8); FBasic (BSet 2); FBasic (BGet 1); FBasic (BOp (SLoad LI32_16u 14%Z)); FBasic (BTee 10); FBasic (BConst (VI32 (-8)%Z)); FBasic (BOp (SNum2 (B_int W32 Iadd))); FBrTable [1; 2; 2; 2; 2; 2; 2; 2; 2; 2; 2; 2; 2; 2; 2; 2; 2; 2; 2; 4] 2; FEnd; FBasic (BGet 1); FBasic (BOp (SLoad LI32 16%Z)); FBasic (BSet 2); FEnd; FBasic (BGet 2); FBrIf 1; FBasic (BConst (VI32 1051800%Z)); FBasic (BOp (SCvt (C_ext Ux))); FBasic (BConst (VI64 32%Z)); FBasic (BOp (SNum2 (B_int W64 Ishl))); FBasic (BConst (VI64 2%Z)); FBasic (BOp (SNum2 (B_int W64 Ior))); FBasic (BSet 4); FBr 9; FEnd; FBasic (BGet 10); FBasic (BOp (SCvt (C_ext Ux))); FBasic (BConst (VI64 32%Z)); FBasic (BOp (SNum2 (B_int W64 Ishl))); FBasic (BSet 4); FBr 8; FEnd; FBasic (BGet 2); FBasic (BGet 0); FBasic (BOp (SNum2 (B_int W32 Iadd))); FBasic (BSet 0); FEnd; FBasic (BGet 0); FBasic (BGet 6); FBasic (BOp (SNum2 (B_irel W32 Ige_u))); FBrIf 7; FBr 0; FEnd; FEnd; FBasic (BConst (VI32 1052400%Z)); FCall 170; FUnreachable; FEnd; FBasic (BGet 1); FBasic (BConst (VI32 0%Z)); FBasic (BOp (SStore SI32 28%Z)); FBasic (BGet 1); FBasic (BConst (VI32 1%Z)); FBasic (BOp (SStore SI32 16%Z)); FBasic (BGet 1); FBasic (BConst (VI32 1053516%Z)); FBasic (BOp (SStore SI32 12%Z)); FBasic (BGet 1); FBasic (BConst (VI64 4%Z)); FBasic (BOp (SStore SI64 20%Z)); FBasic (BGet 1); FBasic (BConst (VI32 12%Z)); FBasic (BOp (SNum2 (B_int W32 Iadd))); FBasic (BConst (VI32 1051624%Z)); FCall 152; FUnreachable; FEnd; FBasic (BGet 1); FBasic (BConst (VI32 0%Z)); FBasic (BOp (SStore SI32 28%Z)); FBasic (BGet 1); FBasic (BConst (VI32 1%Z)); FBasic (BOp (SStore SI32 16%Z)); FBasic (BGet 1); FBasic (BConst (VI32 1053452%Z)); FBasic (BOp (SStore SI32 12%Z)); FBasic (BGet 1); FBasic (BConst (VI64 4%Z)); FBasic (BOp (SStore SI64 20%Z)); FBasic (BGet 1); FBasic (BConst (VI32 12%Z)); FBasic (BOp (SNum2 (B_int W32 Iadd))); FBasic (BConst (VI32 1051624%Z)); FCall 152; FUnreachable; FEnd; FCall 59; FUnreachable; FEnd; FBasic (BConst (VI32 1051900%Z)); FCall 160; FUnreachable; FEnd; FBasic (BGet 4); FBasic (BOp (SCvt (C_wrap))); FBasic (BSet 2); FBlock false [] []; FBasic (BGet 0); FBasic (BOp (SNum1 (U_eqz W32))); FBrIf 0; FBasic (BGet 8); FBasic (BOp (SNum1 (U_eqz W32))); FBrIf 0; FBasic (BGet 7); FBasic (BGet 9); FBasic (BGet 8); FBasic (BOp SMemCopy); FEnd; FBlock false [] []; FBasic (BGet 2); FBasic (BConst (VI32 255%Z)); FBasic (BOp (SNum2 (B_int W32 Iand))); FBasic (BTee 0); FBasic (BConst (VI32 4%Z)); FBasic (BOp (SNum2 (B_irel W32 Igt_u))); FBrIf 0; FBasic (BGet 0); FBasic (BConst (VI32 3%Z)); FBasic (BOp (SNum2 (B_irel W32 Ine))); FBrIf 2; FEnd; FBasic (BGet 4); FBasic (BConst (VI64 32%Z)); FBasic (BOp (SNum2 (B_int W64 Ishr_u))); FBasic (BOp (SCvt (C_wrap))); FBasic (BTee 0); FBasic (BOp (SLoad LI32 0%Z)); FBasic (BSet 6); FBlock false [] []; FBasic (BGet 0); FBasic (BConst (VI32 4%Z)); FBasic (BOp (SNum2 (B_int W32 Iadd))); FBasic (BOp (SLoad LI32 0%Z)); FBasic (BTee 2); FBasic (BOp (SLoad LI32 0%Z)); FBasic (BTee 8); FBasic (BOp (SNum1 (U_eqz W32))); FBrIf 0; FBasic (BGet 6); FBasic (BGet 8); FCallInd 1 0; FEnd; FBlock false [] []; FBasic (BGet 2); FBasic (BOp (SLoad LI32 4%Z)); FBasic (BTee 8); FBasic (BOp (SNum1 (U_eqz W32))); FBrIf 0; FBasic (BGet 6); FBasic (BGet 8); FBasic (BGet 2); FBasic (BOp (SLoad LI32 8%Z)); FCall 19; FEnd; FBasic (BGet 0); FBasic (BConst (VI32 12%Z)); FBasic (BConst (VI32 4%Z)); FCall 19; FBr 1; FEnd; FBasic (BGet 0); FBasic (BGet 6); FBasic (BOp (SNum2 (B_irel W32 Ile_u))); FBrIf 0; FBasic (BGet 0); FBasic (BGet 6); FBasic (BConst (VI32 1051272%Z)); FCall 149; FUnreachable; FEnd; FBlock false [] []; FBasic (BConst (VI32 0%Z)); FBasic (BOp (SLoad LI32 1057220%Z)); FBasic (BTee 0); FBasic (BOp (SNum1 (U_eqz W32))); FBrIf 0; FBasic (BConst (VI32 0%Z)); FBasic (BOp (SLoad LI32 1057224%Z)); FBasic (BGet 0); FBasic (BConst (VI32 1%Z)); FCall 19; FEnd; FBasic (BConst (VI32 0%Z)); FBasic (BConst (VI64 4294967296%Z)); FBasic (BOp (SStore SI64 1057220%Z)); FBasic (BConst (VI32 0%Z)); FBasic (BConst (VI32 0%Z)); FBasic (BOp (SLoad LI32 1057216%Z)); FBasic (BConst (VI32 1%Z)); FBasic (BOp (SNum2 (B_int W32 Iadd))); FBasic (BOp (SStore SI32 1057216%Z)); FBasic (BConst (VI32 0%Z)); FBasic (BConst (VI32 0%Z)); FBasic (BOp (SLoad LI32 1057208%Z)); FBasic (BConst (VI32 (-1)%Z)); FBasic (BOp (SNum2 (B_int W32 Iadd))); FBasic (BTee 0); FBasic (BOp (SStore SI32 1057208%Z)); FBasic (BConst (VI32 0%Z)); FBasic (BConst (VI32 0%Z)); FBasic (BOp (SStore SI32_8 1057232%Z)); FBasic (BConst (VI32 0%Z)); FBasic (BConst (VI32 0%Z)); FBasic (BOp (SStore SI32 1057228%Z)); FBasic (BGet 0); FBrIf 0; FBasic (BConst (VI32 0%Z)); FBasic (BConst (VI64 0%Z)); FBasic (BOp (SStore SI64 1057200%Z)); FBasic (BConst (VI32 0%Z)); FBasic (BConst (VI32 0%Z)); FBasic (BOp (SStore SI32_8 1057212%Z)); FEnd; FBasic (BConst (VI32 0%Z)); FBasic (BConst (VI32 3%Z)); FBasic (BOp (SStore SI32_8 1057198%Z)); FEnd; FBasic (BGet 1); FBasic (BConst (VI32 48%Z)); FBasic (BOp (SNum2 (B_int W32 Iadd))); FBasic (BOp (SGlobalSet TI32 0)); FEnd]; b_bad := false |};
    PCode {| b_locals := [TI32; TI64; TI64; TI64; TI32]; b_badlocals := false; b_ops := [FBasic (BOp (SGlobalGet TI32 0)); FBasic (BConst (VI32 16%Z)); FBasic (BOp (SNum2 (B_int W32 Isub))); FBasic (BTee 5); FBasic (BOp (SGlobalSet TI32 0)); FBlock false [] []; FBlock false [] []; FBasic (BConst (VI32 0%Z)); FBasic (BOp (SLoad LI64 1057272%Z)); FBasic (BTee 6); FBasic (BConst (VI64 0%Z)); FBasic (BOp (SNum2 (B_irel W64 Ine))); FBrIf 0; FBasic (BConst (VI32 0%Z)); FBasic (BOp (SLoad LI64 1057280%Z)); FBasic (BSet 7); FBlock true [] []; FBasic (BGet 7); FBasic (BConst (VI64 (-1)%Z)); FBasic (BOp (SNum2 (B_irel W64 Ieq))); FBrIf 2; FBasic (BConst (VI32 0%Z)); FBasic (BGet 7); FBasic (BConst (VI64 1%Z)); FBasic (BOp (SNum2 (B_int W64 Iadd))); FBasic (BTee 6); FBasic (BConst (VI32 0%Z)); FBasic (BOp (SLoad LI64 1057280%Z)); FBasic (BTee 8); FBasic (BGet 8); FBasic (BGet 7); FBasic (BOp (SNum2 (B_irel W64 Ieq))); FBasic (BTee 9); FBasic (BSelect None); FBasic (BOp (SStore SI64 1057280%Z)); FBasic (BGet 8); FBasic (BSet 7); FBasic (BGet 9); FBasic (BOp (SNum1 (U_eqz W32))); FBrIf 0; FEnd; FBasic (BConst (VI32 0%Z)); FBasic (BGet 6); FBasic (BOp (SStore SI64 1057272%Z)); FEnd; FBasic (BConst (VI32 0%Z)); FBasic (BGet 6); FBasic (BOp (SStore SI64 1057288%Z)); FBasic (BGet 0); FBasic (BGet 1); FBasic (BOp (SLoad LI32 20%Z)); FCallInd 3 0; FBasic (BSet 9); FBlock false [] []; FBasic (BConst (VI32 0%Z)); FBasic (BOp (SLoad LI32_8u 1057198%Z)); FBasic (BConst (VI32 3%Z)); FBasic (BOp (SNum2 (B_irel W32 Ieq))); FBrIf 0; FBasic (BGet 5); FBasic (BConst (VI32 1%Z)); FBasic (BOp (SStore SI32_8 15%Z)); FBasic (BGet 5); FBasic (BConst (VI32 15%Z)); FBasic (BOp (SNum2 (B_int W32 Iadd))); FCall 57; FEnd; FBasic (BGet 5); FBasic (BConst (VI32 16%Z)); FBasic (BOp (SNum2 (B_int W32 Iadd))); FBasic (BOp (SGlobalSet TI32 0)); FBasic (BGet 9); FReturn; FEnd; FCall 59; FUnreachable; FEnd]; b_bad := false |};
    PCode {| b_locals := [TI32]; b_badlocals := false; b_ops := [FBasic (BOp (SGlobalGet TI32 0)); FBasic (BConst (VI32 32%Z)); FBasic (BOp (SNum2 (B_int W32 Isub))); FBasic (BTee 0); FBasic (BOp (SGlobalSet TI32 0)); FBasic (BGet 0); FBasic (BConst (VI32 0%Z)); FBasic (BOp (SStore SI32 24%Z)); FBasic (BGet 0); FBasic (BConst (VI32 1%Z)); FBasic (BOp (SStore SI32 12%Z)); FBasic (BGet 0); FBasic (BConst (VI32 1051724%Z)); FBasic (BOp (SStore SI32 8%Z)); FBasic (BGet 0); FBasic (BConst (VI64 4%Z)); FBasic (BOp (SStore SI64 16%Z)); FBasic (BGet 0); FBasic (BConst (VI32 8%Z)); FBasic (BOp (SNum2 (B_int W32 Iadd))); FBasic (BConst (VI32 1051732%Z)); FCall 152; FUnreachable; FEnd]; b_bad := false |};
    PCode {| b_locals := [TI32; TI32]; b_badlocals := false; b_ops := [FBasic (BOp (SGlobalGet TI32 0)); FBasic (BConst (VI32 48%Z)); FBasic (BOp (SNum2 (B_int W32 Isub))); FBasic (BTee 3); FBasic (BOp (SGlobalSet TI32 0)); FBasic (BGet 3); FBasic (BConst (VI32 4%Z)); FBasic (BOp (SStore SI32_8 8%Z)); FBasic (BGet 3); FBasic (BGet 1); FBasic (BOp (SStore SI32 16%Z)); FBlock false [] []; FBlock false [] []; FBlock false [] []; FBasic (BGet 3); FBasic (BConst (VI32 8%Z)); FBasic (BOp (SNum2 (B_int W32 Iadd))); FBasic (BConst (VI32 1051460%Z)); FBasic (BGet 2); FCall 153; FBasic (BOp (SNum1 (U_eqz W32))); FBrIf 0; FBasic (BGet 3); FBasic (BOp (SLoad LI32_8u 8%Z)); FBasic (BConst (VI32 4%Z)); FBasic (BOp (SNum2 (B_irel W32 Ine))); FBrIf 1; FBasic (BGet 3); FBasic (BConst (VI32 0%Z)); FBasic (BOp (SStore SI32 40%Z)); FBasic (BGet 3); FBasic (BConst (VI32 1%Z)); FBasic (BOp (SStore SI32 28%Z)); FBasic (BGet 3); FBasic (BConst (VI32 1052028%Z)); FBasic (BOp (SStore SI32 24%Z)); FBasic (BGet 3); FBasic (BConst (VI64 4%Z)); FBasic (BOp (SStore SI64 32%Z)); FBasic (BGet 3); FBasic (BConst (VI32 24%Z)); FBasic (BOp (SNum2 (B_int W32 Iadd))); FBasic (BConst (VI32 1052036%Z)); FCall 152; FUnreachable; FEnd; FBasic (BGet 0); FBasic (BConst (VI32 4%Z)); FBasic (BOp (SStore SI32_8 0%Z)); FBasic (BGet 3); FBasic (BOp (SLoad LI32 12%Z)); FBasic (BSet 2); FBlock false [] []; FBasic (BGet 3); FBasic (BOp (SLoad LI32_8u 8%Z)); FBasic (BTee 1); FBasic (BConst (VI32 4%Z)); FBasic (BOp (SNum2 (B_irel W32 Igt_u))); FBrIf 0; FBasic (BGet 1); FBasic (BConst (VI32 3%Z)); FBasic (BOp (SNum2 (B_irel W32 Ine))); FBrIf 2; FEnd; FBasic (BGet 2); FBasic (BOp (SLoad LI32 0%Z)); FBasic (BSet 0); FBlock false [] []; FBasic (BGet 2); FBasic (BConst (VI32 4%Z)); FBasic (BOp (SNum2 (B_int W32 Iadd))); FBasic (BOp (SLoad LI32 0%Z)); FBasic (BTee 1); FBasic (BOp (SLoad LI32 0%Z)); FBasic (BTee 4); FBasic (BOp (SNum1 (U_eqz W32))); FBrIf 0; FBasic (BGet 0); FBasic (BGet 4); FCallInd 1 0; FEnd; FBlock false [] []; FBasic (BGet 1); FBasic (BOp (SLoad LI32 4%Z)); FBasic (BTee 4); FBasic (BOp (SNum1 (U_eqz W32))); FBrIf 0; FBasic (BGet 0); FBasic (BGet 4); FBasic (BGet 1); FBasic (BOp (SLoad LI32 8%Z)); FCall 19; FEnd; FBasic (BGet 2); FBasic (BConst (VI32 12%Z)); FBasic (BConst (VI32 4%Z)); FCall 19; FBr 1; FEnd; FBasic (BGet 0); FBasic (BGet 3); FBasic (BOp (SLoad LI64 8%Z)); FBasic (BOp (SStore SI64 0%Z)); FEnd; FBasic (BGet 3); FBasic (BConst (VI32 48%Z)); FBasic (BOp (SNum2 (B_int W32 Iadd))); FBasic (BOp (SGlobalSet TI32 0)); FEnd]; b_bad := false |};
    PCode {| b_locals := []; b_badlocals := false; b_ops := [FCall 128; FUnreachable; FEnd]; b_bad := false |};
    PCode {| b_locals := [TI32; TI32; TI32; TI32; TI32]; b_badlocals := false; b_ops := [FBasic (BOp (SGlobalGet TI32 0)); FBasic (BConst (VI32 16%Z)); FBasic (BOp (SNum2 (B_int W32 Isub))); FBasic (BTee 1); FBasic (BOp (SGlobalSet TI32 0)); FBasic (BConst (VI32 0%Z)); FBasic (BOp (SLoad LI32_8u 1057197%Z)); FBasic BDrop; FBasic (BConst (VI32 512%Z)); FBasic (BSet 2); FBlock false [] []; FBlock false [] []; FBasic (BConst (VI32 512%Z)); FBasic (BConst (VI32 1%Z)); FCall 18; FBasic (BTee 3); FBasic (BOp (SNum1 (U_eqz W32))); FBrIf 0; FBasic (BGet 1); FBasic (BGet 3); FBasic (BOp (SStore SI32 8%Z)); FBasic (BGet 1); FBasic (BConst (VI32 512%Z)); FBasic (BOp (SStore SI32 4%Z)); FBlock false [] []; FBlock false [] []; FBasic (BGet 3); FBasic (BConst (VI32 512%Z)); FCall 129; FBrIf 0; FBasic (BConst (VI32 512%Z)); FBasic (BSet 2); FBlock true [] []; FBlock false [] []; FBasic (BConst (VI32 0%Z)); FBasic (BOp (SLoad LI32 1057808%Z)); FBasic (BTee 4); FBasic (BConst (VI32 68%Z)); FBasic (BOp (SNum2 (B_irel W32 Ieq))); FBrIf 0; FBasic (BGet 0); FBasic (BGet 4); FBasic (BOp (SStore SI32 8%Z)); FBasic (BGet 0); FBasic (BConst (VI64 2147483648%Z)); FBasic (BOp (SStore SI64 0%Z)); FBasic (BGet 2); FBasic (BOp (SNum1 (U_eqz W32))); FBrIf 3; FBasic (BGet 3); FBasic (BGet 2); FBasic (BConst (VI32 1%Z)); FCall 19; FBr 3; FEnd; FBasic (BGet 1); FBasic (BGet 2); FBasic (BOp (SStore SI32 12%Z)); FBasic (BGet 1); FBasic (BConst (VI32 4%Z)); FBasic (BOp (SNum2 (B_int W32 Iadd))); FBasic (BGet 2); FBasic (BConst (VI32 1%Z)); FBasic (BConst (VI32 1%Z)); FBasic (BConst (VI32 1%Z)); FCall 35; FBasic (BGet 1); FBasic (BOp (SLoad LI32 8%Z)); FBasic (BTee 3); FBasic (BGet 1); FBasic (BOp (SLoad LI32 4%Z)); FBasic (BTee 2); FCall 129; FBasic (BOp (SNum1 (U_eqz W32))); FBrIf 0; FEnd; FEnd; FBasic (BGet 1); FBasic (BGet 3); FCall 140; FBasic (BTee 4); FBasic (BOp (SStore SI32 12%Z)); FBlock false [] []; FBasic (BGet 2); FBasic (BGet 4); FBasic (BOp (SNum2 (B_irel W32 Ile_u))); FBrIf 0; FBlock false [] []; FBlock false [] []; FBasic (BGet 4); FBrIf 0; FBasic (BConst (VI32 1%Z)); FBasic (BSet 5); FBasic (BGet 3); FBasic (BGet 2); FBasic (BConst (VI32 1%Z)); FCall 19; FBr 1; FEnd; FBasic (BGet 3); FBasic (BGet 2); FBasic (BConst (VI32 1%Z)); FBasic (BGet 4); FCall 20; FBasic (BTee 5); FBasic (BOp (SNum1 (U_eqz W32))); FBrIf 4; FEnd; FBasic (BGet 1); FBasic (BGet 4); FBasic (BOp (SStore SI32 4%Z)); FBasic (BGet 1); FBasic (BGet 5); FBasic (BOp (SStore SI32 8%Z)); FEnd; FBasic (BGet 0); FBasic (BGet 1); FBasic (BOp (SLoad LI64 4%Z)); FBasic (BOp (SStore SI64 0%Z)); FBasic (BGet 0); FBasic (BConst (VI32 8%Z)); FBasic (BOp (SNum2 (B_int W32 Iadd))); FBasic (BGet 1); FBasic (BConst (VI32 4%Z)); FBasic (BOp (SNum2 (B_int W32 Iadd))); FBasic (BConst (VI32 8%Z)); FBasic (BOp (SNum2 (B_int W32 Iadd))); FBasic (BOp (SLoad LI32 0%Z)); FBasic (BOp (SStore SI32 0%Z)); FEnd; FBasic (BGet 1); FBasic (BConst (VI32 16%Z)); FBasic (BOp (SNum2 (B_int W32 Iadd))); FBasic (BOp (SGlobalSet TI32 0)); FReturn; FEnd; FBasic (BConst (VI32 1%Z)); FBasic (BConst (VI32 512%Z)); FBasic (BConst (VI32 1053376%Z)); FCall 143; FUnreachable; FEnd; FBasic (BConst (VI32 1%Z)); FBasic (BGet 4); FBasic (BConst (VI32 1053392%Z)); FCall 143; FUnreachable; FEnd]; b_bad := false |};
    PCode {| b_locals := [TI32; TI32; TI32]; b_badlocals := false; b_ops := [FBasic (BOp (SGlobalGet TI32 0)); FBasic (BConst (VI32 416%Z)); FBasic (BOp (SNum2 (B_int W32 Isub))); FBasic (BTee 3); FBasic (BOp (SGlobalSet TI32 0)); FBlock false [] []; FBlock false [] []; FBlock false [] []; FBasic (BGet 2); FBasic (BConst (VI32 383%Z)); FBasic (BOp (SNum2 (B_irel W32 Igt_u))); FBrIf 0; FBlock false [] []; FBasic (BGet 2); FBasic (BOp (SNum1 (U_eqz W32))); FBrIf 0; FBasic (BGet 3); FBasic (BConst (VI32 20%Z)); FBasic (BOp (SNum2 (B_int W32 Iadd))); FBasic (BGet 1); FBasic (BGet 2); FBasic (BOp SMemCopy); FEnd; FBasic (BGet 3); FBasic (BConst (VI32 20%Z)); FBasic (BOp (SNum2 (B_int W32 Iadd))); FBasic (BGet 2); FBasic (BOp (SNum2 (B_int W32 Iadd))); FBasic (BConst (VI32 0%Z)); FBasic (BOp (SStore SI32_8 0%Z)); FBasic (BGet 3); FBasic (BConst (VI32 404%Z)); FBasic (BOp (SNum2 (B_int W32 Iadd))); FBasic (BGet 3); FBasic (BConst (VI32 20%Z)); FBasic (BOp (SNum2 (B_int W32 Iadd))); FBasic (BGet 2); FBasic (BConst (VI32 1%Z)); FBasic (BOp (SNum2 (B_int W32 Iadd))); FCall 164; FBlock false [] []; FBasic (BGet 3); FBasic (BOp (SLoad LI32 404%Z)); FBasic (BConst (VI32 1%Z)); FBasic (BOp (SNum2 (B_irel W32 Ine))); FBrIf 0; FBasic (BGet 3); FBasic (BConst (VI32 0%Z)); FBasic (BOp (SLoad LI64 1052488%Z)); FBasic (BOp (SStore SI64 12%Z)); FBasic (BConst (VI32 (-2147483647)%Z)); FBasic (BSet 2); FBr 2; FEnd; FBlock false [] []; FBasic (BGet 3); FBasic (BOp (SLoad LI32 408%Z)); FCall 131; FBasic (BTee 1); FBrIf 0; FBasic (BConst (VI32 (-2147483648)%Z)); FBasic (BSet 2); FBr 2; FEnd; FBasic (BConst (VI32 0%Z)); FBasic (BSet 4); FBasic (BGet 1); FCall 140; FBasic (BTee 2); FBasic (BConst (VI32 0%Z)); FBasic (BOp (SNum2 (B_irel W32 Ilt_s))); FBrIf 2; FBlock false [] []; FBlock false [] []; FBasic (BGet 2); FBrIf 0; FBasic (BConst (VI32 1%Z)); FBasic (BSet 5); FBr 1; FEnd; FBasic (BConst (VI32 0%Z)); FBasic (BOp (SLoad LI32_8u 1057197%Z)); FBasic BDrop; FBasic (BConst (VI32 1%Z)); FBasic (BSet 4); FBasic (BGet 2); FBasic (BConst (VI32 1%Z)); FCall 18; FBasic (BTee 5); FBasic (BOp (SNum1 (U_eqz W32))); FBrIf 3; FEnd; FBlock false [] []; FBasic (BGet 2); FBasic (BOp (SNum1 (U_eqz W32))); FBrIf 0; FBasic (BGet 5); FBasic (BGet 1); FBasic (BGet 2); FBasic (BOp SMemCopy); FEnd; FBasic (BGet 3); FBasic (BGet 2); FBasic (BOp (SStore SI32 16%Z)); FBasic (BGet 3); FBasic (BGet 5); FBasic (BOp (SStore SI32 12%Z)); FBr 1; FEnd; FBasic (BGet 3); FBasic (BConst (VI32 8%Z)); FBasic (BOp (SNum2 (B_int W32 Iadd))); FBasic (BGet 1); FBasic (BGet 2); FCall 64; FBasic (BGet 3); FBasic (BOp (SLoad LI32 8%Z)); FBasic (BSet 2); FEnd; FBlock false [] []; FBlock false [] []; FBasic (BGet 2); FBasic (BConst (VI32 (-2147483647)%Z)); FBasic (BOp (SNum2 (B_irel W32 Ieq))); FBrIf 0; FBasic (BGet 0); FBasic (BGet 3); FBasic (BOp (SLoad LI64 12%Z)); FBasic (BOp (SStore SI64 4%Z)); FBasic (BGet 0); FBasic (BGet 2); FBasic (BOp (SStore SI32 0%Z)); FBr 1; FEnd; FBlock false [] []; FBasic (BGet 3); FBasic (BOp (SLoad LI32_8u 12%Z)); FBasic (BConst (VI32 3%Z)); FBasic (BOp (SNum2 (B_irel W32 Ine))); FBrIf 0; FBasic (BGet 3); FBasic (BOp (SLoad LI32 16%Z)); FBasic (BTee 2); FBasic (BOp (SLoad LI32 0%Z)); FBasic (BSet 5); FBlock false [] []; FBasic (BGet 2); FBasic (BConst (VI32 4%Z)); FBasic (BOp (SNum2 (B_int W32 Iadd))); FBasic (BOp (SLoad LI32 0%Z)); FBasic (BTee 1); FBasic (BOp (SLoad LI32 0%Z)); FBasic (BTee 4); FBasic (BOp (SNum1 (U_eqz W32))); FBrIf 0; FBasic (BGet 5); FBasic (BGet 4); FCallInd 1 0; FEnd; FBlock false [] []; FBasic (BGet 1); FBasic (BOp (SLoad LI32 4%Z)); FBasic (BTee 4); FBasic (BOp (SNum1 (U_eqz W32))); FBrIf 0; FBasic (BGet 5); FBasic (BGet 4); FBasic (BGet 1); FBasic (BOp (SLoad LI32 8%Z)); FCall 19; FEnd; FBasic (BGet 2); FBasic (BConst (VI32 12%Z)); FBasic (BConst (VI32 4%Z)); FCall 19; FEnd; FBasic (BGet 0); FBasic (BConst (VI32 (-2147483648)%Z)); FBasic (BOp (SStore SI32 0%Z)); FEnd; FBasic (BGet 3); FBasic (BConst (VI32 416%Z)); FBasic (BOp (SNum2 (B_int W32 Iadd))); FBasic (BOp (SGlobalSet TI32 0)); FReturn; FEnd; FBasic (BGet 4); FBasic (BGet 2); FBasic (BConst (VI32 1051584%Z)); FCall 143; FUnreachable; FEnd]; b_bad := false |};
    PCode {| b_locals := [TI32; TI32; TI32; TI32; TI32]; b_badlocals := false; b_ops := [FBasic (BOp (SGlobalGet TI32 0)); FBasic (BConst (VI32 16%Z)); FBasic (BOp (SNum2 (B_int W32 Isub))); FBasic (BTee 3); FBasic (BOp (SGlobalSet TI32 0)); FBasic (BGet 3); FBasic (BGet 1); FBasic (BGet 2); FCall 146; FBlock false [] []; FBlock false [] []; FBlock false [] []; FBasic (BGet 3); FBasic (BOp (SLoad LI32 0%Z)); FBasic (BTee 2); FBasic (BConst (VI32 (-2147483648)%Z)); FBasic (BOp (SNum2 (B_irel W32 Ine))); FBrIf 0; FBasic (BGet 3); FBasic (BOp (SLoad LI32 8%Z)); FBasic (BSet 1); FBlock false [] []; FBlock false [] []; FBasic (BGet 3); FBasic (BOp (SLoad LI32 4%Z)); FBasic (BTee 4); FCall 131; FBasic (BTee 5); FBrIf 0; FBasic (BGet 0); FBasic (BConst (VI32 (-2147483648)%Z)); FBasic (BOp (SStore SI32 0%Z)); FBr 1; FEnd; FBasic (BConst (VI32 0%Z)); FBasic (BSet 6); FBasic (BGet 5); FCall 140; FBasic (BTee 2); FBasic (BConst (VI32 0%Z)); FBasic (BOp (SNum2 (B_irel W32 Ilt_s))); FBrIf 3; FBlock false [] []; FBlock false [] []; FBasic (BGet 2); FBrIf 0; FBasic (BConst (VI32 1%Z)); FBasic (BSet 7); FBr 1; FEnd; FBasic (BConst (VI32 0%Z)); FBasic (BOp (SLoad LI32_8u 1057197%Z)); FBasic BDrop; FBasic (BConst (VI32 1%Z)); FBasic (BSet 6); FBasic (BGet 2); FBasic (BConst (VI32 1%Z)); FCall 18; FBasic (BTee 7); FBasic (BOp (SNum1 (U_eqz W32))); FBrIf 4; FEnd; FBlock false [] []; FBasic (BGet 2); FBasic (BOp (SNum1 (U_eqz W32))); FBrIf 0; FBasic (BGet 7); FBasic (BGet 5); FBasic (BGet 2); FBasic (BOp SMemCopy); FEnd; FBasic (BGet 0); FBasic (BGet 2); FBasic (BOp (SStore SI32 8%Z)); FBasic (BGet 0); FBasic (BGet 7); FBasic (BOp (SStore SI32 4%Z)); FBasic (BGet 0); FBasic (BGet 2); FBasic (BOp (SStore SI32 0%Z)); FEnd; FBasic (BGet 4); FBasic (BConst (VI32 0%Z)); FBasic (BOp (SStore SI32_8 0%Z)); FBasic (BGet 1); FBasic (BOp (SNum1 (U_eqz W32))); FBrIf 1; FBasic (BGet 4); FBasic (BGet 1); FBasic (BConst (VI32 1%Z)); FCall 19; FBr 1; FEnd; FBasic (BGet 0); FBasic (BConst (VI32 (-2147483647)%Z)); FBasic (BOp (SStore SI32 0%Z)); FBasic (BGet 0); FBasic (BConst (VI32 0%Z)); FBasic (BOp (SLoad LI64 1052488%Z)); FBasic (BOp (SStore SI64 4%Z)); FBasic (BGet 2); FBasic (BOp (SNum1 (U_eqz W32))); FBrIf 0; FBasic (BGet 3); FBasic (BOp (SLoad LI32 4%Z)); FBasic (BGet 2); FBasic (BConst (VI32 1%Z)); FCall 19; FEnd; FBasic (BGet 3); FBasic (BConst (VI32 16%Z)); FBasic (BOp (SNum2 (B_int W32 Iadd))); FBasic (BOp (SGlobalSet TI32 0)); FReturn; FEnd; FBasic (BGet 6); FBasic (BGet 2); FBasic (BConst (VI32 1051584%Z)); FCall 143; FUnreachable; FEnd]; b_bad := false |};
    PCode {| b_locals := [TI32]; b_badlocals := false; b_ops := [FBlock false [] []; FBasic (BGet 3); FBasic (BGet 1); FBasic (BOp (SLoad LI32 0%Z)); FBasic (BGet 1); FBasic (BOp (SLoad LI32 8%Z)); FBasic (BTee 4); FBasic (BOp (SNum2 (B_int W32 Isub))); FBasic (BOp (SNum2 (B_irel W32 Ile_u))); FBrIf 0; FBasic (BGet 1); FBasic (BGet 4); FBasic (BGet 3); FBasic (BConst (VI32 1%Z)); FBasic (BConst (VI32 1%Z)); FCall 35; FBasic (BGet 1); FBasic (BOp (SLoad LI32 8%Z)); FBasic (BSet 4); FEnd; FBlock false [] []; FBasic (BGet 3); FBasic (BOp (SNum1 (U_eqz W32))); FBrIf 0; FBasic (BGet 1); FBasic (BOp (SLoad LI32 4%Z)); FBasic (BGet 4); FBasic (BOp (SNum2 (B_int W32 Iadd))); FBasic (BGet 2); FBasic (BGet 3); FBasic (BOp SMemCopy); FEnd; FBasic (BGet 0); FBasic (BGet 3); FBasic (BOp (SStore SI32 4%Z)); FBasic (BGet 1); FBasic (BGet 4); FBasic (BGet 3); FBasic (BOp (SNum2 (B_int W32 Iadd))); FBasic (BOp (SStore SI32 8%Z)); FBasic (BGet 0); FBasic (BConst (VI32 4%Z)); FBasic (BOp (SStore SI32_8 0%Z)); FEnd]; b_bad := false |};
    PCode {| b_locals := [TI32; TI32; TI32; TI32; TI32]; b_badlocals := false; b_ops := [FBlock false [] []; FBlock false [] []; FBasic (BGet 3); FBrIf 0; FBasic (BConst (VI32 0%Z)); FBasic (BSet 4); FBr 1; FEnd; FBasic (BGet 3); FBasic (BConst (VI32 3%Z)); FBasic (BOp (SNum2 (B_int W32 Iand))); FBasic (BSet 5); FBlock false [] []; FBlock false [] []; FBasic (BGet 3); FBasic (BConst (VI32 4%Z)); FBasic (BOp (SNum2 (B_irel W32 Ige_u))); FBrIf 0; FBasic (BConst (VI32 0%Z)); FBasic (BSet 4); FBasic (BConst (VI32 0%Z)); FBasic (BSet 6); FBr 1; FEnd; FBasic (BGet 2); FBasic (BConst (VI32 28%Z)); FBasic (BOp (SNum2 (B_int W32 Iadd))); FBasic (BSet 7); FBasic (BGet 3); FBasic (BConst (VI32 (-4)%Z)); FBasic (BOp (SNum2 (B_int W32 Iand))); FBasic (BSet 8); FBasic (BConst (VI32 0%Z)); FBasic (BSet 4); FBasic (BConst (VI32 0%Z)); FBasic (BSet 6); FBlock true [] []; FBasic (BGet 7); FBasic (BOp (SLoad LI32 0%Z)); FBasic (BGet 7); FBasic (BConst (VI32 (-8)%Z)); FBasic (BOp (SNum2 (B_int W32 Iadd))); FBasic (BOp (SLoad LI32 0%Z)); FBasic (BGet 7); FBasic (BConst (VI32 (-16)%Z)); FBasic (BOp (SNum2 (B_int W32 Iadd))); FBasic (BOp (SLoad LI32 0%Z)); FBasic (BGet 7); FBasic (BConst (VI32 (-24)%Z)); FBasic (BOp (SNum2 (B_int W32 Iadd))); FBasic (BOp (SLoad LI32 0%Z)); FBasic (BGet 4); FBasic (BOp (SNum2 (B_int W32 Iadd))); FBasic (BOp (SNum2 (B_int W32 Iadd))); FBasic (BOp (SNum2 (B_int W32 Iadd))); FBasic (BOp (SNum2 (B_int W32 Iadd))); FBasic (BSet 4); FBasic (BGet 7); FBasic (BConst (VI32 32%Z)); FBasic (BOp (SNum2 (B_int W32 Iadd))); FBasic (BSet 7); FBasic (BGet 8); FBasic (BGet 6); FBasic (BConst (VI32 4%Z)); FBasic (BOp (SNum2 (B_int W32 Iadd))); FBasic (BTee 6); FBasic (BOp (SNum2 (B_irel W32 Ine))); FBrIf 0; FEnd; FEnd; FBlock false [] []; FBasic (BGet 5); FBasic (BOp (SNum1 (U_eqz W32))); FBrIf 0; FBasic (BGet 6); FBasic (BConst (VI32 3%Z)); FBasic (BOp (SNum2 (B_int W32 Ishl))); FBasic (BGet 2); FBasic (BOp (SNum2 (B_int W32 Iadd))); FBasic (BConst (VI32 4%Z)); FBasic (BOp (SNum2 (B_int W32 Iadd))); FBasic (BSet 7); FBlock true [] []; FBasic (BGet 7); FBasic (BOp (SLoad LI32 0%Z)); FBasic (BGet 4); FBasic (BOp (SNum2 (B_int W32 Iadd))); FBasic (BSet 4); FBasic (BGet 7); FBasic (BConst (VI32 8%Z)); FBasic (BOp (SNum2 (B_int W32 Iadd))); FBasic (BSet 7); FBasic (BGet 5); FBasic (BConst (VI32 (-1)%Z)); FBasic (BOp (SNum2 (B_int W32 Iadd))); FBasic (BTee 5); FBrIf 0; FEnd; FEnd; FBasic (BGet 3); FBasic (BConst (VI32 3%Z)); FBasic (BOp (SNum2 (B_int W32 Ishl))); FBasic (BSet 7); FBlock false [] []; FBasic (BGet 4); FBasic (BGet 1); FBasic (BOp (SLoad LI32 0%Z)); FBasic (BGet 1); FBasic (BOp (SLoad LI32 8%Z)); FBasic (BTee 5); FBasic (BOp (SNum2 (B_int W32 Isub))); FBasic (BOp (SNum2 (B_irel W32 Ile_u))); FBrIf 0; FBasic (BGet 1); FBasic (BGet 5); FBasic (BGet 4); FBasic (BConst (VI32 1%Z)); FBasic (BConst (VI32 1%Z)); FCall 35; FEnd; FBasic (BGet 2); FBasic (BGet 7); FBasic (BOp (SNum2 (B_int W32 Iadd))); FBasic (BSet 8); FBasic (BGet 1); FBasic (BOp (SLoad LI32 8%Z)); FBasic (BSet 7); FBlock true [] []; FBasic (BGet 2); FBasic (BOp (SLoad LI32 0%Z)); FBasic (BSet 6); FBlock false [] []; FBasic (BGet 2); FBasic (BConst (VI32 4%Z)); FBasic (BOp (SNum2 (B_int W32 Iadd))); FBasic (BOp (SLoad LI32 0%Z)); FBasic (BTee 5); FBasic (BGet 1); FBasic (BOp (SLoad LI32 0%Z)); FBasic (BGet 7); FBasic (BOp (SNum2 (B_int W32 Isub))); FBasic (BOp (SNum2 (B_irel W32 Ile_u))); FBrIf 0; FBasic (BGet 1); FBasic (BGet 7); FBasic (BGet 5); FBasic (BConst (VI32 1%Z)); FBasic (BConst (VI32 1%Z)); FCall 35; FBasic (BGet 1); FBasic (BOp (SLoad LI32 8%Z)); FBasic (BSet 7); FEnd; FBlock false [] []; FBasic (BGet 5); FBasic (BOp (SNum1 (U_eqz W32))); FBrIf 0; FBasic (BGet 1); FBasic (BOp (SLoad LI32 4%Z)); FBasic (BGet 7); FBasic (BOp (SNum2 (B_int W32 Iadd))); FBasic (BGet 6); FBasic (BGet 5); FBasic (BOp SMemCopy); FEnd; FBasic (BGet 1); FBasic (BGet 7); FBasic (BGet 5); FBasic (BOp (SNum2 (B_int W32 Iadd))); FBasic (BTee 7); FBasic (BOp (SStore SI32 8%Z)); FBasic (BGet 2); FBasic (BConst (VI32 8%Z)); FBasic (BOp (SNum2 (B_int W32 Iadd))); FBasic (BTee 2); FBasic (BGet 8); FBasic (BOp (SNum2 (B_irel W32 Ine))); FBrIf 0; FEnd; FEnd; FBasic (BGet 0); FBasic (BConst (VI32 4%Z)); FBasic (BOp (SStore SI32_8 0%Z)); FBasic (BGet 0); FBasic (BGet 4); FBasic (BOp (SStore SI32 4%Z)); FEnd]; b_bad := false |};
    PCode {| b_locals := []; b_badlocals := false; b_ops := [FBasic (BConst (VI32 1%Z)); FEnd]; b_bad := false |};
    PCode {| b_locals := [TI32]; b_badlocals := false; b_ops := [FBlock false [] []; FBasic (BGet 3); FBasic (BGet 1); FBasic (BOp (SLoad LI32 0%Z)); FBasic (BGet 1); FBasic (BOp (SLoad LI32 8%Z)); FBasic (BTee 4); FBasic (BOp (SNum2 (B_int W32 Isub))); FBasic (BOp (SNum2 (B_irel W32 Ile_u))); FBrIf 0; FBasic (BGet 1); FBasic (BGet 4); FBasic (BGet 3); FBasic (BConst (VI32 1%Z)); FBasic (BConst (VI32 1%Z)); FCall 35; FBasic (BGet 1); FBasic (BOp (SLoad LI32 8%Z)); FBasic (BSet 4); FEnd; FBlock false [] []; FBasic (BGet 3); FBasic (BOp (SNum1 (U_eqz W32))); FBrIf 0; FBasic (BGet 1); FBasic (BOp (SLoad LI32 4%Z)); FBasic (BGet 4); FBasic (BOp (SNum2 (B_int W32 Iadd))); FBasic (BGet 2); FBasic (BGet 3); FBasic (BOp SMemCopy); FEnd; FBasic (BGet 0); FBasic (BConst (VI32 4%Z)); FBasic (BOp (SStore SI32_8 0%Z)); FBasic (BGet 1); FBasic (BGet 4); FBasic (BGet 3); FBasic (BOp (SNum2 (B_int W32 Iadd))); FBasic (BOp (SStore SI32 8%Z)); FEnd]; b_bad := false |};
    PCode {| b_locals := [TI32; TI32; TI32; TI32; TI32]; b_badlocals := false; b_ops := [FBlock false [] []; FBasic (BGet 3); FBasic (BOp (SNum1 (U_eqz W32))); FBrIf 0; FBasic (BGet 3); FBasic (BConst (VI32 3%Z)); FBasic (BOp (SNum2 (B_int W32 Iand))); FBasic (BSet 4); FBlock false [] []; FBlock false [] []; FBasic (BGet 3); FBasic (BConst (VI32 4%Z)); FBasic (BOp (SNum2 (B_irel W32 Ige_u))); FBrIf 0; FBasic (BConst (VI32 0%Z)); FBasic (BSet 5); FBasic (BConst (VI32 0%Z)); FBasic (BSet 6); FBr 1; FEnd; FBasic (BGet 2); FBasic (BConst (VI32 28%Z)); FBasic (BOp (SNum2 (B_int W32 Iadd))); FBasic (BSet 7); FBasic (BGet 3); FBasic (BConst (VI32 (-4)%Z)); FBasic (BOp (SNum2 (B_int W32 Iand))); FBasic (BSet 8); FBasic (BConst (VI32 0%Z)); FBasic (BSet 5); FBasic (BConst (VI32 0%Z)); FBasic (BSet 6); FBlock true [] []; FBasic (BGet 7); FBasic (BOp (SLoad LI32 0%Z)); FBasic (BGet 7); FBasic (BConst (VI32 (-8)%Z)); FBasic (BOp (SNum2 (B_int W32 Iadd))); FBasic (BOp (SLoad LI32 0%Z)); FBasic (BGet 7); FBasic (BConst (VI32 (-16)%Z)); FBasic (BOp (SNum2 (B_int W32 Iadd))); FBasic (BOp (SLoad LI32 0%Z)); FBasic (BGet 7); FBasic (BConst (VI32 (-24)%Z)); FBasic (BOp (SNum2 (B_int W32 Iadd))); FBasic (BOp (SLoad LI32 0%Z)); FBasic (BGet 5); FBasic (BOp (SNum2 (B_int W32 Iadd))); FBasic (BOp (SNum2 (B_int W32 Iadd))); FBasic (BOp (SNum2 (B_int W32 Iadd))); FBasic (BOp (SNum2 (B_int W32 Iadd))); FBasic (BSet 5); FBasic (BGet 7); FBasic (BConst (VI32 32%Z)); FBasic (BOp (SNum2 (B_int W32 Iadd))); FBasic (BSet 7); FBasic (BGet 8); FBasic (BGet 6); FBasic (BConst (VI32 4%Z)); FBasic (BOp (SNum2 (B_int W32 Iadd))); FBasic (BTee 6); FBasic (BOp (SNum2 (B_irel W32 Ine))); FBrIf 0; FEnd; FEnd; FBlock false [] []; FBasic (BGet 4); FBasic (BOp (SNum1 (U_eqz W32))); FBrIf 0; FBasic (BGet 6); FBasic (BConst (VI32 3%Z)); FBasic (BOp (SNum2 (B_int W32 Ishl))); FBasic (BGet 2); FBasic (BOp (SNum2 (B_int W32 Iadd))); FBasic (BConst (VI32 4%Z)); FBasic (BOp (SNum2 (B_int W32 Iadd))); FBasic (BSet 7); FBlock true [] []; FBasic (BGet 7); FBasic (BOp (SLoad LI32 0%Z)); FBasic (BGet 5); FBasic (BOp (SNum2 (B_int W32 Iadd))); FBasic (BSet 5); FBasic (BGet 7); FBasic (BConst (VI32 8%Z)); FBasic (BOp (SNum2 (B_int W32 Iadd))); FBasic (BSet 7); FBasic (BGet 4); FBasic (BConst (VI32 (-1)%Z)); FBasic (BOp (SNum2 (B_int W32 Iadd))); FBasic (BTee 4); FBrIf 0; FEnd; FEnd; FBasic (BGet 3); FBasic (BConst (VI32 3%Z)); FBasic (BOp (SNum2 (B_int W32 Ishl))); FBasic (BSet 4); FBlock false [] []; FBasic (BGet 5); FBasic (BGet 1); FBasic (BOp (SLoad LI32 0%Z)); FBasic (BGet 1); FBasic (BOp (SLoad LI32 8%Z)); FBasic (BTee 7); FBasic (BOp (SNum2 (B_int W32 Isub))); FBasic (BOp (SNum2 (B_irel W32 Ile_u))); FBrIf 0; FBasic (BGet 1); FBasic (BGet 7); FBasic (BGet 5); FBasic (BConst (VI32 1%Z)); FBasic (BConst (VI32 1%Z)); FCall 35; FBasic (BGet 1); FBasic (BOp (SLoad LI32 8%Z)); FBasic (BSet 7); FEnd; FBasic (BGet 2); FBasic (BGet 4); FBasic (BOp (SNum2 (B_int W32 Iadd))); FBasic (BSet 6); FBlock true [] []; FBasic (BGet 2); FBasic (BOp (SLoad LI32 0%Z)); FBasic (BSet 4); FBlock false [] []; FBasic (BGet 2); FBasic (BConst (VI32 4%Z)); FBasic (BOp (SNum2 (B_int W32 Iadd))); FBasic (BOp (SLoad LI32 0%Z)); FBasic (BTee 5); FBasic (BGet 1); FBasic (BOp (SLoad LI32 0%Z)); FBasic (BGet 7); FBasic (BOp (SNum2 (B_int W32 Isub))); FBasic (BOp (SNum2 (B_irel W32 Ile_u))); FBrIf 0; FBasic (BGet 1); FBasic (BGet 7); FBasic (BGet 5); FBasic (BConst (VI32 1%Z)); FBasic (BConst (VI32 1%Z)); FCall 35; FBasic (BGet 1); FBasic (BOp (SLoad LI32 8%Z)); FBasic (BSet 7); FEnd; FBlock false [] []; FBasic (BGet 5); FBasic (BOp (SNum1 (U_eqz W32))); FBrIf 0; FBasic (BGet 1); FBasic (BOp (SLoad LI32 4%Z)); FBasic (BGet 7); FBasic (BOp (SNum2 (B_int W32 Iadd))); FBasic (BGet 4); FBasic (BGet 5); FBasic (BOp SMemCopy); FEnd; FBasic (BGet 1); FBasic (BGet 7); FBasic (BGet 5); FBasic (BOp (SNum2 (B_int W32 Iadd))); FBasic (BTee 7); FBasic (BOp (SStore SI32 8%Z)); FBasic (BGet 2); FBasic (BConst (VI32 8%Z)); FBasic (BOp (SNum2 (B_int W32 Iadd))); FBasic (BTee 2); FBasic (BGet 6); FBasic (BOp (SNum2 (B_irel W32 Ine))); FBrIf 0; FEnd; FEnd; FBasic (BGet 0); FBasic (BConst (VI32 4%Z)); FBasic (BOp (SStore SI32_8 0%Z)); FEnd]; b_bad := false |};
    PCode {| b_locals := []; b_badlocals := false; b_ops := [FBasic (BGet 0); FBasic (BConst (VI32 4%Z)); FBasic (BOp (SStore SI32_8 0%Z)); FEnd]; b_bad := false |};
    PCode {| b_locals := [TI32; TI32; TI32; TI32; TI32; TI32; TI64; TI32]; b_badlocals := false; b_ops := [FBasic (BOp (SGlobalGet TI32 0)); FBasic (BConst (VI32 32%Z)); FBasic (BOp (SNum2 (B_int W32 Isub))); FBasic (BTee 4); FBasic (BOp (SGlobalSet TI32 0)); FBlock false [] []; FBlock false [] []; FBasic (BGet 3); FBasic (BOp (SNum1 (U_eqz W32))); FBrIf 0; FBasic (BGet 2); FBasic (BConst (VI32 4%Z)); FBasic (BOp (SNum2 (B_int W32 Iadd))); FBasic (BSet 5); FBasic (BGet 3); FBasic (BConst (VI32 3%Z)); FBasic (BOp (SNum2 (B_int W32 Ishl))); FBasic (BSet 6); FBasic (BGet 3); FBasic (BConst (VI32 (-1)%Z)); FBasic (BOp (SNum2 (B_int W32 Iadd))); FBasic (BConst (VI32 536870911%Z)); FBasic (BOp (SNum2 (B_int W32 Iand))); FBasic (BConst (VI32 1%Z)); FBasic (BOp (SNum2 (B_int W32 Iadd))); FBasic (BSet 7); FBasic (BConst (VI32 0%Z)); FBasic (BSet 8); FBlock false [] []; FBlock true [] []; FBasic (BGet 5); FBasic (BOp (SLoad LI32 0%Z)); FBrIf 1; FBasic (BGet 5); FBasic (BConst (VI32 8%Z)); FBasic (BOp (SNum2 (B_int W32 Iadd))); FBasic (BSet 5); FBasic (BGet 8); FBasic (BConst (VI32 1%Z)); FBasic (BOp (SNum2 (B_int W32 Iadd))); FBasic (BSet 8); FBasic (BGet 6); FBasic (BConst (VI32 (-8)%Z)); FBasic (BOp (SNum2 (B_int W32 Iadd))); FBasic (BTee 6); FBrIf 0; FEnd; FBasic (BGet 7); FBasic (BSet 8); FEnd; FBlock false [] []; FBasic (BGet 3); FBasic (BGet 8); FBasic (BOp (SNum2 (B_irel W32 Ilt_u))); FBrIf 0; FBasic (BGet 3); FBasic (BGet 8); FBasic (BOp (SNum2 (B_irel W32 Ieq))); FBrIf 1; FBasic (BGet 3); FBasic (BGet 8); FBasic (BOp (SNum2 (B_int W32 Isub))); FBasic (BSet 7); FBasic (BGet 2); FBasic (BGet 8); FBasic (BConst (VI32 3%Z)); FBasic (BOp (SNum2 (B_int W32 Ishl))); FBasic (BOp (SNum2 (B_int W32 Iadd))); FBasic (BSet 9); FBlock false [] []; FBlock true [] []; FBasic (BGet 4); FBasic (BConst (VI32 8%Z)); FBasic (BOp (SNum2 (B_int W32 Iadd))); FBasic (BConst (VI32 2%Z)); FBasic (BGet 9); FBasic (BGet 7); FCall 110; FBlock false [] []; FBasic (BGet 4); FBasic (BOp (SLoad LI32_16u 8%Z)); FBasic (BOp (SNum1 (U_eqz W32))); FBrIf 0; FBasic (BGet 4); FBasic (BOp (SLoad LI64_16u 10%Z)); FBasic (BTee 10); FBasic (BConst (VI64 27%Z)); FBasic (BOp (SNum2 (B_irel W64 Ieq))); FBrIf 1; FBasic (BGet 0); FBasic (BGet 10); FBasic (BConst (VI64 32%Z)); FBasic (BOp (SNum2 (B_int W64 Ishl))); FBasic (BOp (SStore SI64 0%Z)); FBr 5; FEnd; FBlock false [] []; FBasic (BGet 4); FBasic (BOp (SLoad LI32 12%Z)); FBasic (BTee 5); FBrIf 0; FBasic (BGet 0); FBasic (BConst (VI32 0%Z)); FBasic (BOp (SLoad LI64 1051864%Z)); FBasic (BOp (SStore SI64 0%Z)); FBr 5; FEnd; FBasic (BGet 9); FBasic (BConst (VI32 4%Z)); FBasic (BOp (SNum2 (B_int W32 Iadd))); FBasic (BSet 8); FBasic (BGet 7); FBasic (BConst (VI32 3%Z)); FBasic (BOp (SNum2 (B_int W32 Ishl))); FBasic (BSet 3); FBasic (BGet 7); FBasic (BConst (VI32 (-1)%Z)); FBasic (BOp (SNum2 (B_int W32 Iadd))); FBasic (BConst (VI32 536870911%Z)); FBasic (BOp (SNum2 (B_int W32 Iand))); FBasic (BConst (VI32 1%Z)); FBasic (BOp (SNum2 (B_int W32 Iadd))); FBasic (BSet 11); FBasic (BConst (VI32 0%Z)); FBasic (BSet 6); FBlock false [] []; FBlock true [] []; FBasic (BGet 5); FBasic (BGet 8); FBasic (BOp (SLoad LI32 0%Z)); FBasic (BTee 2); FBasic (BOp (SNum2 (B_irel W32 Ilt_u))); FBrIf 1; FBasic (BGet 8); FBasic (BConst (VI32 8%Z)); FBasic (BOp (SNum2 (B_int W32 Iadd))); FBasic (BSet 8); FBasic (BGet 6); FBasic (BConst (VI32 1%Z)); FBasic (BOp (SNum2 (B_int W32 Iadd))); FBasic (BSet 6); FBasic (BGet 5); FBasic (BGet 2); FBasic (BOp (SNum2 (B_int W32 Isub))); FBasic (BSet 5); FBasic (BGet 3); FBasic (BConst (VI32 (-8)%Z)); FBasic (BOp (SNum2 (B_int W32 Iadd))); FBasic (BTee 3); FBrIf 0; FEnd; FBasic (BGet 11); FBasic (BSet 6); FEnd; FBlock false [] []; FBasic (BGet 7); FBasic (BGet 6); FBasic (BOp (SNum2 (B_irel W32 Ilt_u))); FBrIf 0; FBlock false [] []; FBasic (BGet 7); FBasic (BGet 6); FBasic (BOp (SNum2 (B_irel W32 Ine))); FBrIf 0; FBasic (BGet 5); FBasic (BOp (SNum1 (U_eqz W32))); FBrIf 5; FBasic (BGet 4); FBasic (BConst (VI32 0%Z)); FBasic (BOp (SStore SI32 24%Z)); FBasic (BGet 4); FBasic (BConst (VI32 1%Z)); FBasic (BOp (SStore SI32 12%Z)); FBasic (BGet 4); FBasic (BConst (VI32 1052108%Z)); FBasic (BOp (SStore SI32 8%Z)); FBasic (BGet 4); FBasic (BConst (VI64 4%Z)); FBasic (BOp (SStore SI64 16%Z)); FBasic (BGet 4); FBasic (BConst (VI32 8%Z)); FBasic (BOp (SNum2 (B_int W32 Iadd))); FBasic (BConst (VI32 1052116%Z)); FCall 152; FUnreachable; FEnd; FBasic (BGet 9); FBasic (BGet 6); FBasic (BConst (VI32 3%Z)); FBasic (BOp (SNum2 (B_int W32 Ishl))); FBasic (BOp (SNum2 (B_int W32 Iadd))); FBasic (BTee 9); FBasic (BOp (SLoad LI32 4%Z)); FBasic (BTee 8); FBasic (BGet 5); FBasic (BOp (SNum2 (B_irel W32 Ilt_u))); FBrIf 2; FBasic (BGet 7); FBasic (BGet 6); FBasic (BOp (SNum2 (B_int W32 Isub))); FBasic (BSet 7); FBasic (BGet 9); FBasic (BGet 8); FBasic (BGet 5); FBasic (BOp (SNum2 (B_int W32 Isub))); FBasic (BOp (SStore SI32 4%Z)); FBasic (BGet 9); FBasic (BGet 9); FBasic (BOp (SLoad LI32 0%Z)); FBasic (BGet 5); FBasic (BOp (SNum2 (B_int W32 Iadd))); FBasic (BOp (SStore SI32 0%Z)); FBr 1; FEnd; FEnd; FBasic (BGet 6); FBasic (BGet 7); FBasic (BConst (VI32 1052052%Z)); FCall 148; FUnreachable; FEnd; FBasic (BGet 4); FBasic (BConst (VI32 0%Z)); FBasic (BOp (SStore SI32 24%Z)); FBasic (BGet 4); FBasic (BConst (VI32 1%Z)); FBasic (BOp (SStore SI32 12%Z)); FBasic (BGet 4); FBasic (BConst (VI32 1052168%Z)); FBasic (BOp (SStore SI32 8%Z)); FBasic (BGet 4); FBasic (BConst (VI64 4%Z)); FBasic (BOp (SStore SI64 16%Z)); FBasic (BGet 4); FBasic (BConst (VI32 8%Z)); FBasic (BOp (SNum2 (B_int W32 Iadd))); FBasic (BConst (VI32 1052216%Z)); FCall 152; FUnreachable; FEnd; FBasic (BGet 8); FBasic (BGet 3); FBasic (BConst (VI32 1052052%Z)); FCall 148; FUnreachable; FEnd; FBasic (BGet 0); FBasic (BConst (VI32 4%Z)); FBasic (BOp (SStore SI32_8 0%Z)); FEnd; FBasic (BGet 4); FBasic (BConst (VI32 32%Z)); FBasic (BOp (SNum2 (B_int W32 Iadd))); FBasic (BOp (SGlobalSet TI32 0)); FEnd]; b_bad := false |};
    PCode {| b_locals := [TI32; TI32]; b_badlocals := false; b_ops := [FBasic (BOp (SGlobalGet TI32 0)); FBasic (BConst (VI32 48%Z)); FBasic (BOp (SNum2 (B_int W32 Isub))); FBasic (BTee 3); FBasic (BOp (SGlobalSet TI32 0)); FBasic (BGet 3); FBasic (BConst (VI32 4%Z)); FBasic (BOp (SStore SI32_8 8%Z)); FBasic (BGet 3); FBasic (BGet 1); FBasic (BOp (SStore SI32 16%Z)); FBlock false [] []; FBlock false [] []; FBlock false [] []; FBasic (BGet 3); FBasic (BConst (VI32 8%Z)); FBasic (BOp (SNum2 (B_int W32 Iadd))); FBasic (BConst (VI32 1051436%Z)); FBasic (BGet 2); FCall 153; FBasic (BOp (SNum1 (U_eqz W32))); FBrIf 0; FBasic (BGet 3); FBasic (BOp (SLoad LI32_8u 8%Z)); FBasic (BConst (VI32 4%Z)); FBasic (BOp (SNum2 (B_irel W32 Ine))); FBrIf 1; FBasic (BGet 3); FBasic (BConst (VI32 0%Z)); FBasic (BOp (SStore SI32 40%Z)); FBasic (BGet 3); FBasic (BConst (VI32 1%Z)); FBasic (BOp (SStore SI32 28%Z)); FBasic (BGet 3); FBasic (BConst (VI32 1052028%Z)); FBasic (BOp (SStore SI32 24%Z)); FBasic (BGet 3); FBasic (BConst (VI64 4%Z)); FBasic (BOp (SStore SI64 32%Z)); FBasic (BGet 3); FBasic (BConst (VI32 24%Z)); FBasic (BOp (SNum2 (B_int W32 Iadd))); FBasic (BConst (VI32 1052036%Z)); FCall 152; FUnreachable; FEnd; FBasic (BGet 0); FBasic (BConst (VI32 4%Z)); FBasic (BOp (SStore SI32_8 0%Z)); FBasic (BGet 3); FBasic (BOp (SLoad LI32 12%Z)); FBasic (BSet 2); FBlock false [] []; FBasic (BGet 3); FBasic (BOp (SLoad LI32_8u 8%Z)); FBasic (BTee 1); FBasic (BConst (VI32 4%Z)); FBasic (BOp (SNum2 (B_irel W32 Igt_u))); FBrIf 0; FBasic (BGet 1); FBasic (BConst (VI32 3%Z)); FBasic (BOp (SNum2 (B_irel W32 Ine))); FBrIf 2; FEnd; FBasic (BGet 2); FBasic (BOp (SLoad LI32 0%Z)); FBasic (BSet 0); FBlock false [] []; FBasic (BGet 2); FBasic (BConst (VI32 4%Z)); FBasic (BOp (SNum2 (B_int W32 Iadd))); FBasic (BOp (SLoad LI32 0%Z)); FBasic (BTee 1); FBasic (BOp (SLoad LI32 0%Z)); FBasic (BTee 4); FBasic (BOp (SNum1 (U_eqz W32))); FBrIf 0; FBasic (BGet 0); FBasic (BGet 4); FCallInd 1 0; FEnd; FBlock false [] []; FBasic (BGet 1); FBasic (BOp (SLoad LI32 4%Z)); FBasic (BTee 4); FBasic (BOp (SNum1 (U_eqz W32))); FBrIf 0; FBasic (BGet 0); FBasic (BGet 4); FBasic (BGet 1); FBasic (BOp (SLoad LI32 8%Z)); FCall 19; FEnd; FBasic (BGet 2); FBasic (BConst (VI32 12%Z)); FBasic (BConst (VI32 4%Z)); FCall 19; FBr 1; FEnd; FBasic (BGet 0); FBasic (BGet 3); FBasic (BOp (SLoad LI64 8%Z)); FBasic (BOp (SStore SI64 0%Z)); FEnd; FBasic (BGet 3); FBasic (BConst (VI32 48%Z)); FBasic (BOp (SNum2 (B_int W32 Iadd))); FBasic (BOp (SGlobalSet TI32 0)); FEnd]; b_bad := false |};
    PCode {| b_locals := [TI32]; b_badlocals := false; b_ops := [FBlock false [] []; FBasic (BGet 2); FBasic (BGet 0); FBasic (BOp (SLoad LI32 8%Z)); FBasic (BTee 0); FBasic (BOp (SLoad LI32 0%Z)); FBasic (BGet 0); FBasic (BOp (SLoad LI32 8%Z)); FBasic (BTee 3); FBasic (BOp (SNum2 (B_int W32 Isub))); FBasic (BOp (SNum2 (B_irel W32 Ile_u))); FBrIf 0; FBasic (BGet 0); FBasic (BGet 3); FBasic (BGet 2); FBasic (BConst (VI32 1%Z)); FBasic (BConst (VI32 1%Z)); FCall 35; FBasic (BGet 0); FBasic (BOp (SLoad LI32 8%Z)); FBasic (BSet 3); FEnd; FBlock false [] []; FBasic (BGet 2); FBasic (BOp (SNum1 (U_eqz W32))); FBrIf 0; FBasic (BGet 0); FBasic (BOp (SLoad LI32 4%Z)); FBasic (BGet 3); FBasic (BOp (SNum2 (B_int W32 Iadd))); FBasic (BGet 1); FBasic (BGet 2); FBasic (BOp SMemCopy); FEnd; FBasic (BGet 0); FBasic (BGet 3); FBasic (BGet 2); FBasic (BOp (SNum2 (B_int W32 Iadd))); FBasic (BOp (SStore SI32 8%Z)); FBasic (BConst (VI32 0%Z)); FEnd]; b_bad := false |};
    PCode {| b_locals := [TI32; TI32; TI32; TI64; TI32; TI32; TI64]; b_badlocals := false; b_ops := [FBasic (BConst (VI32 0%Z)); FBasic (BSet 3); FBlock false [] []; FBasic (BConst (VI32 0%Z)); FBasic (BGet 0); FBasic (BOp (SLoad LI32 8%Z)); FBasic (BTee 4); FBasic (BOp (SLoad LI32 4%Z)); FBasic (BTee 5); FBasic (BGet 4); FBasic (BOp (SLoad LI64 8%Z)); FBasic (BTee 6); FBasic (BConst (VI64 4294967295%Z)); FBasic (BGet 6); FBasic (BConst (VI64 4294967295%Z)); FBasic (BOp (SNum2 (B_irel W64 Ilt_u))); FBasic (BSelect None); FBasic (BOp (SCvt (C_wrap))); FBasic (BOp (SNum2 (B_int W32 Isub))); FBasic (BTee 7); FBasic (BGet 7); FBasic (BGet 5); FBasic (BOp (SNum2 (B_irel W32 Igt_u))); FBasic (BSelect None); FBasic (BTee 7); FBasic (BGet 2); FBasic (BGet 7); FBasic (BGet 2); FBasic (BOp (SNum2 (B_irel W32 Ilt_u))); FBasic (BSelect None); FBasic (BTee 8); FBasic (BOp (SNum1 (U_eqz W32))); FBrIf 0; FBasic (BGet 4); FBasic (BOp (SLoad LI32 0%Z)); FBasic (BGet 6); FBasic (BGet 5); FBasic (BOp (SCvt (C_ext Ux))); FBasic (BTee 9); FBasic (BGet 6); FBasic (BGet 9); FBasic (BOp (SNum2 (B_irel W64 Ilt_u))); FBasic (BSelect None); FBasic (BOp (SCvt (C_wrap))); FBasic (BOp (SNum2 (B_int W32 Iadd))); FBasic (BGet 1); FBasic (BGet 8); FBasic (BOp SMemCopy); FEnd; FBasic (BGet 4); FBasic (BGet 6); FBasic (BGet 8); FBasic (BOp (SCvt (C_ext Ux))); FBasic (BOp (SNum2 (B_int W64 Iadd))); FBasic (BOp (SStore SI64 8%Z)); FBlock false [] []; FBasic (BGet 7); FBasic (BGet 2); FBasic (BOp (SNum2 (B_irel W32 Ige_u))); FBrIf 0; FBasic (BConst (VI32 0%Z)); FBasic (BSet 3); FBasic (BConst (VI32 0%Z)); FBasic (BOp (SLoad LI64 1051864%Z)); FBasic (BTee 6); FBasic (BConst (VI64 255%Z)); FBasic (BOp (SNum2 (B_int W64 Iand))); FBasic (BConst (VI64 4%Z)); FBasic (BOp (SNum2 (B_irel W64 Ieq))); FBrIf 0; FBasic (BGet 0); FBasic (BOp (SLoad LI32 4%Z)); FBasic (BSet 4); FBlock false [] []; FBlock false [] []; FBasic (BGet 0); FBasic (BOp (SLoad LI32_8u 0%Z)); FBasic (BTee 2); FBasic (BConst (VI32 4%Z)); FBasic (BOp (SNum2 (B_irel W32 Igt_u))); FBrIf 0; FBasic (BGet 2); FBasic (BConst (VI32 3%Z)); FBasic (BOp (SNum2 (B_irel W32 Ine))); FBrIf 1; FEnd; FBasic (BGet 4); FBasic (BOp (SLoad LI32 0%Z)); FBasic (BSet 7); FBlock false [] []; FBasic (BGet 4); FBasic (BConst (VI32 4%Z)); FBasic (BOp (SNum2 (B_int W32 Iadd))); FBasic (BOp (SLoad LI32 0%Z)); FBasic (BTee 2); FBasic (BOp (SLoad LI32 0%Z)); FBasic (BTee 3); FBasic (BOp (SNum1 (U_eqz W32))); FBrIf 0; FBasic (BGet 7); FBasic (BGet 3); FCallInd 1 0; FEnd; FBlock false [] []; FBasic (BGet 2); FBasic (BOp (SLoad LI32 4%Z)); FBasic (BTee 3); FBasic (BOp (SNum1 (U_eqz W32))); FBrIf 0; FBasic (BGet 7); FBasic (BGet 3); FBasic (BGet 2); FBasic (BOp (SLoad LI32 8%Z)); FCall 19; FEnd; FBasic (BGet 4); FBasic (BConst (VI32 12%Z)); FBasic (BConst (VI32 4%Z)); FCall 19; FEnd; FBasic (BGet 0); FBasic (BGet 6); FBasic (BOp (SStore SI64 0%Z)); FBasic (BConst (VI32 1%Z)); FBasic (BSet 3); FEnd; FBasic (BGet 3); FEnd]; b_bad := false |};
    PCode {| b_locals := [TI32; TI64; TI32]; b_badlocals := false; b_ops := [FBasic (BOp (SGlobalGet TI32 0)); FBasic (BConst (VI32 16%Z)); FBasic (BOp (SNum2 (B_int W32 Isub))); FBasic (BTee 4); FBasic (BOp (SGlobalSet TI32 0)); FBlock false [] []; FBlock false [] []; FBlock false [] []; FBasic (BGet 3); FBasic (BOp (SNum1 (U_eqz W32))); FBrIf 0; FBlock true [] []; FBasic (BGet 4); FBasic (BGet 3); FBasic (BOp (SStore SI32 4%Z)); FBasic (BGet 4); FBasic (BGet 2); FBasic (BOp (SStore SI32 0%Z)); FBasic (BGet 4); FBasic (BConst (VI32 8%Z)); FBasic (BOp (SNum2 (B_int W32 Iadd))); FBasic (BConst (VI32 2%Z)); FBasic (BGet 4); FBasic (BConst (VI32 1%Z)); FCall 110; FBlock false [] []; FBlock false [] []; FBasic (BGet 4); FBasic (BOp (SLoad LI32_16u 8%Z)); FBasic (BOp (SNum1 (U_eqz W32))); FBrIf 0; FBasic (BGet 4); FBasic (BOp (SLoad LI64_16u 10%Z)); FBasic (BTee 5); FBasic (BConst (VI64 27%Z)); FBasic (BOp (SNum2 (B_irel W64 Ieq))); FBrIf 1; FBasic (BGet 0); FBasic (BGet 5); FBasic (BConst (VI64 32%Z)); FBasic (BOp (SNum2 (B_int W64 Ishl))); FBasic (BOp (SStore SI64 0%Z)); FBr 4; FEnd; FBlock false [] []; FBasic (BGet 4); FBasic (BOp (SLoad LI32 12%Z)); FBasic (BTee 6); FBrIf 0; FBasic (BGet 0); FBasic (BConst (VI32 0%Z)); FBasic (BOp (SLoad LI64 1051864%Z)); FBasic (BOp (SStore SI64 0%Z)); FBr 4; FEnd; FBasic (BGet 3); FBasic (BGet 6); FBasic (BOp (SNum2 (B_irel W32 Ilt_u))); FBrIf 4; FBasic (BGet 2); FBasic (BGet 6); FBasic (BOp (SNum2 (B_int W32 Iadd))); FBasic (BSet 2); FBasic (BGet 3); FBasic (BGet 6); FBasic (BOp (SNum2 (B_int W32 Isub))); FBasic (BSet 3); FEnd; FBasic (BGet 3); FBrIf 0; FEnd; FEnd; FBasic (BGet 0); FBasic (BConst (VI32 4%Z)); FBasic (BOp (SStore SI32_8 0%Z)); FEnd; FBasic (BGet 4); FBasic (BConst (VI32 16%Z)); FBasic (BOp (SNum2 (B_int W32 Iadd))); FBasic (BOp (SGlobalSet TI32 0)); FReturn; FEnd; FBasic (BGet 6); FBasic (BGet 3); FBasic (BConst (VI32 1052232%Z)); FCall 148; FUnreachable; FEnd]; b_bad := false |};
    PCode {| b_locals := [TI32; TI32]; b_badlocals := false; b_ops := [FBasic (BOp (SGlobalGet TI32 0)); FBasic (BConst (VI32 48%Z)); FBasic (BOp (SNum2 (B_int W32 Isub))); FBasic (BTee 3); FBasic (BOp (SGlobalSet TI32 0)); FBasic (BGet 3); FBasic (BConst (VI32 4%Z)); FBasic (BOp (SStore SI32_8 8%Z)); FBasic (BGet 3); FBasic (BGet 1); FBasic (BOp (SStore SI32 16%Z)); FBlock false [] []; FBlock false [] []; FBlock false [] []; FBasic (BGet 3); FBasic (BConst (VI32 8%Z)); FBasic (BOp (SNum2 (B_int W32 Iadd))); FBasic (BConst (VI32 1051412%Z)); FBasic (BGet 2); FCall 153; FBasic (BOp (SNum1 (U_eqz W32))); FBrIf 0; FBasic (BGet 3); FBasic (BOp (SLoad LI32_8u 8%Z)); FBasic (BConst (VI32 4%Z)); FBasic (BOp (SNum2 (B_irel W32 Ine))); FBrIf 1; FBasic (BGet 3); FBasic (BConst (VI32 0%Z)); FBasic (BOp (SStore SI32 40%Z)); FBasic (BGet 3); FBasic (BConst (VI32 1%Z)); FBasic (BOp (SStore SI32 28%Z)); FBasic (BGet 3); FBasic (BConst (VI32 1052028%Z)); FBasic (BOp (SStore SI32 24%Z)); FBasic (BGet 3); FBasic (BConst (VI64 4%Z)); FBasic (BOp (SStore SI64 32%Z)); FBasic (BGet 3); FBasic (BConst (VI32 24%Z)); FBasic (BOp (SNum2 (B_int W32 Iadd))); FBasic (BConst (VI32 1052036%Z)); FCall 152; FUnreachable; FEnd; FBasic (BGet 0); FBasic (BConst (VI32 4%Z)); FBasic (BOp (SStore SI32_8 0%Z)); FBasic (BGet 3); FBasic (BOp (SLoad LI32 12%Z)); FBasic (BSet 2); FBlock false [] []; FBasic (BGet 3); FBasic (BOp (SLoad LI32_8u 8%Z)); FBasic (BTee 1); FBasic (BConst (VI32 4%Z)); FBasic (BOp (SNum2 (B_irel W32 Igt_u))); FBrIf 0; FBasic (BGet 1); FBasic (BConst (VI32 3%Z)); FBasic (BOp (SNum2 (B_irel W32 Ine))); FBrIf 2; FEnd; FBasic (BGet 2); FBasic (BOp (SLoad LI32 0%Z)); FBasic (BSet 0); FBlock false [] []; FBasic (BGet 2); FBasic (BConst (VI32 4%Z)); FBasic (BOp (SNum2 (B_int W32 Iadd))); FBasic (BOp (SLoad LI32 0%Z)); FBasic (BTee 1); FBasic (BOp (SLoad LI32 0%Z)); FBasic (BTee 4); FBasic (BOp (SNum1 (U_eqz W32))); FBrIf 0; FBasic (BGet 0); FBasic (BGet 4); FCallInd 1 0; FEnd; FBlock false [] []; FBasic (BGet 1); FBasic (BOp (SLoad LI32 4%Z)); FBasic (BTee 4); FBasic (BOp (SNum1 (U_eqz W32))); FBrIf 0; FBasic (BGet 0); FBasic (BGet 4); FBasic (BGet 1); FBasic (BOp (SLoad LI32 8%Z)); FCall 19; FEnd; FBasic (BGet 2); FBasic (BConst (VI32 12%Z)); FBasic (BConst (VI32 4%Z)); FCall 19; FBr 1; FEnd; FBasic (BGet 0); FBasic (BGet 3); FBasic (BOp (SLoad LI64 8%Z)); FBasic (BOp (SStore SI64 0%Z)); FEnd; FBasic (BGet 3); FBasic (BConst (VI32 48%Z)); FBasic (BOp (SNum2 (B_int W32 Iadd))); FBasic (BOp (SGlobalSet TI32 0)); FEnd]; b_bad := false |};
    PCode {| b_locals := [TI32; TI32; TI32; TI32; TI32]; b_badlocals := false; b_ops := [FBasic (BOp (SGlobalGet TI32 0)); FBasic (BConst (VI32 16%Z)); FBasic (BOp (SNum2 (B_int W32 Isub))); FBasic (BTee 0); FBasic (BOp (SGlobalSet TI32 0)); FBasic (BConst (VI32 3%Z)); FBasic (BSet 1); FBlock false [] []; FBasic (BConst (VI32 0%Z)); FBasic (BOp (SLoad LI32_8u 1057248%Z)); FBasic (BConst (VI32 (-1)%Z)); FBasic (BOp (SNum2 (B_int W32 Iadd))); FBasic (BTee 2); FBasic (BConst (VI32 255%Z)); FBasic (BOp (SNum2 (B_int W32 Iand))); FBasic (BConst (VI32 3%Z)); FBasic (BOp (SNum2 (B_irel W32 Ilt_u))); FBrIf 0; FBasic (BGet 0); FBasic (BConst (VI32 4%Z)); FBasic (BOp (SNum2 (B_int W32 Iadd))); FBasic (BConst (VI32 1051752%Z)); FBasic (BConst (VI32 14%Z)); FCall 63; FBasic (BConst (VI32 2%Z)); FBasic (BSet 2); FBlock false [] []; FBasic (BGet 0); FBasic (BOp (SLoad LI32 4%Z)); FBasic (BTee 3); FBasic (BConst (VI32 (-2147483648)%Z)); FBasic (BOp (SNum2 (B_irel W32 Ieq))); FBrIf 0; FBasic (BGet 0); FBasic (BOp (SLoad LI32 8%Z)); FBasic (BSet 4); FBlock false [] []; FBlock false [] []; FBlock false [] []; FBlock false [] []; FBlock false [] []; FBasic (BGet 0); FBasic (BOp (SLoad LI32 12%Z)); FBasic (BConst (VI32 (-1)%Z)); FBasic (BOp (SNum2 (B_int W32 Iadd))); FBrTable [1; 2; 2; 0] 2; FEnd; FBasic (BGet 4); FBasic (BOp (SLoad LI32 0%Z)); FBasic (BConst (VI32 1819047270%Z)); FBasic (BOp (SNum2 (B_irel W32 Ine))); FBrIf 1; FBasic (BConst (VI32 1%Z)); FBasic (BSet 2); FBasic (BConst (VI32 2%Z)); FBasic (BSet 1); FBasic (BGet 3); FBrIf 3; FBr 4; FEnd; FBasic (BGet 4); FBasic (BOp (SLoad LI32_8u 0%Z)); FBasic (BConst (VI32 48%Z)); FBasic (BOp (SNum2 (B_irel W32 Ieq))); FBrIf 1; FEnd; FBasic (BConst (VI32 0%Z)); FBasic (BSet 2); FBasic (BConst (VI32 1%Z)); FBasic (BSet 1); FBasic (BGet 3); FBasic (BOp (SNum1 (U_eqz W32))); FBrIf 2; FBr 1; FEnd; FBasic (BConst (VI32 2%Z)); FBasic (BSet 2); FBasic (BConst (VI32 3%Z)); FBasic (BSet 1); FBasic (BGet 3); FBasic (BOp (SNum1 (U_eqz W32))); FBrIf 1; FEnd; FBasic (BGet 4); FBasic (BGet 3); FBasic (BConst (VI32 1%Z)); FCall 19; FEnd; FBasic (BConst (VI32 0%Z)); FBasic (BConst (VI32 0%Z)); FBasic (BOp (SLoad LI32_8u 1057248%Z)); FBasic (BTee 3); FBasic (BGet 1); FBasic (BGet 3); FBasic (BSelect None); FBasic (BOp (SStore SI32_8 1057248%Z)); FBasic (BGet 3); FBasic (BOp (SNum1 (U_eqz W32))); FBrIf 0; FBasic (BConst (VI32 3%Z)); FBasic (BSet 2); FBasic (BGet 3); FBasic (BConst (VI32 4%Z)); FBasic (BOp (SNum2 (B_irel W32 Ige_u))); FBrIf 0; FBasic (BConst (VI32 33619971%Z)); FBasic (BGet 3); FBasic (BConst (VI32 3%Z)); FBasic (BOp (SNum2 (B_int W32 Ishl))); FBasic (BConst (VI32 248%Z)); FBasic (BOp (SNum2 (B_int W32 Iand))); FBasic (BOp (SNum2 (B_int W32 Ishr_u))); FBasic (BSet 2); FEnd; FBasic (BGet 0); FBasic (BConst (VI32 16%Z)); FBasic (BOp (SNum2 (B_int W32 Iadd))); FBasic (BOp (SGlobalSet TI32 0)); FBasic (BGet 2); FEnd]; b_bad := false |};
    PCode {| b_locals := []; b_badlocals := false; b_ops := [FCall 61; FUnreachable; FEnd]; b_bad := false |};
    PCode {| b_locals := [TI32]; b_badlocals := false; b_ops := [FBasic (BOp (SGlobalGet TI32 0)); FBasic (BConst (VI32 32%Z)); FBasic (BOp (SNum2 (B_int W32 Isub))); FBasic (BTee 1); FBasic (BOp (SGlobalSet TI32 0)); FBlock false [] []; FBlock false [] []; FBlock false [] []; FBasic (BConst (VI32 0%Z)); FBasic (BOp (SLoad LI32_8u 1057240%Z)); FBrTable [1; 1; 0; 2] 1; FEnd; FBasic (BGet 1); FBasic (BConst (VI32 0%Z)); FBasic (BOp (SStore SI32 24%Z)); FBasic (BGet 1); FBasic (BConst (VI32 1%Z)); FBasic (BOp (SStore SI32 12%Z)); FBasic (BGet 1); FBasic (BConst (VI32 1053516%Z)); FBasic (BOp (SStore SI32 8%Z)); FBasic (BGet 1); FBasic (BConst (VI64 4%Z)); FBasic (BOp (SStore SI64 16%Z)); FBasic (BGet 1); FBasic (BConst (VI32 8%Z)); FBasic (BOp (SNum2 (B_int W32 Iadd))); FBasic (BConst (VI32 1052416%Z)); FCall 152; FUnreachable; FEnd; FBasic (BConst (VI32 0%Z)); FBasic (BConst (VI32 3%Z)); FBasic (BOp (SStore SI32_8 1057240%Z)); FBasic (BConst (VI32 0%Z)); FBasic (BConst (VI64 1%Z)); FBasic (BOp (SStore SI64 1057224%Z)); FBasic (BConst (VI32 0%Z)); FBasic (BConst (VI64 0%Z)); FBasic (BOp (SStore SI64 1057216%Z)); FBasic (BConst (VI32 0%Z)); FBasic (BConst (VI64 0%Z)); FBasic (BOp (SStore SI64 1057200%Z)); FBasic (BGet 0); FBasic (BConst (VI32 1%Z)); FBasic (BOp (SStore SI32_8 0%Z)); FBasic (BConst (VI32 0%Z)); FBasic (BConst (VI32 0%Z)); FBasic (BOp (SStore SI32_8 1057232%Z)); FBasic (BConst (VI32 0%Z)); FBasic (BConst (VI32 0%Z)); FBasic (BOp (SStore SI32_8 1057212%Z)); FBasic (BConst (VI32 0%Z)); FBasic (BConst (VI32 0%Z)); FBasic (BOp (SStore SI32 1057208%Z)); FEnd; FBasic (BGet 1); FBasic (BConst (VI32 32%Z)); FBasic (BOp (SNum2 (B_int W32 Iadd))); FBasic (BOp (SGlobalSet TI32 0)); FEnd]; b_bad := false |};
    PCode {| b_locals := [TI32; TI32]; b_badlocals := false; b_ops := [FBasic (BOp (SGlobalGet TI32 0)); FBasic (BConst (VI32 32%Z)); FBasic (BOp (SNum2 (B_int W32 Isub))); FBasic (BTee 0); FBasic (BOp (SGlobalSet TI32 0)); FBasic (BConst (VI32 0%Z)); FBasic (BOp (SLoad LI32_8u 1057249%Z)); FBasic (BSet 1); FBasic (BConst (VI32 0%Z)); FBasic (BConst (VI32 1%Z)); FBasic (BOp (SStore SI32_8 1057249%Z)); FBasic (BGet 0); FBasic (BGet 1); FBasic (BOp (SStore SI32_8 7%Z)); FBlock false [] []; FBasic (BGet 1); FBasic (BConst (VI32 1%Z)); FBasic (BOp (SNum2 (B_irel W32 Ine))); FBrIf 0; FBasic (BGet 0); FBasic (BConst (VI64 0%Z)); FBasic (BOp (SStore SI64 20%Z)); FBasic (BGet 0); FBasic (BConst (VI64 17179869185%Z)); FBasic (BOp (SStore SI64 12%Z)); FBasic (BGet 0); FBasic (BConst (VI32 1052296%Z)); FBasic (BOp (SStore SI32 8%Z)); FBasic (BConst (VI32 0%Z)); FBasic (BGet 0); FBasic (BConst (VI32 7%Z)); FBasic (BOp (SNum2 (B_int W32 Iadd))); FBasic (BConst (VI32 1053592%Z)); FBasic (BGet 0); FBasic (BConst (VI32 8%Z)); FBasic (BOp (SNum2 (B_int W32 Iadd))); FBasic (BConst (VI32 1052348%Z)); FCall 52; FUnreachable; FEnd; FBasic (BGet 0); FBasic (BConst (VI32 32%Z)); FBasic (BOp (SNum2 (B_int W32 Iadd))); FBasic (BOp (SGlobalSet TI32 0)); FBasic (BConst (VI32 1057249%Z)); FEnd]; b_bad := false |};
    PCode {| b_locals := [TI32]; b_badlocals := false; b_ops := [FBasic (BOp (SGlobalGet TI32 0)); FBasic (BConst (VI32 48%Z)); FBasic (BOp (SNum2 (B_int W32 Isub))); FBasic (BTee 4); FBasic (BOp (SGlobalSet TI32 0)); FBasic (BGet 4); FBasic (BConst (VI32 1%Z)); FBasic (BOp (SStore SI32 12%Z)); FBasic (BGet 4); FBasic (BConst (VI32 1051812%Z)); FBasic (BOp (SStore SI32 8%Z)); FBasic (BGet 4); FBasic (BConst (VI64 1%Z)); FBasic (BOp (SStore SI64 20%Z)); FBasic (BGet 4); FBasic (BGet 3); FBasic (BOp (SStore SI32_8 47%Z)); FBasic (BGet 4); FBasic (BConst (VI32 9%Z)); FBasic (BOp (SCvt (C_ext Ux))); FBasic (BConst (VI64 32%Z)); FBasic (BOp (SNum2 (B_int W64 Ishl))); FBasic (BGet 4); FBasic (BConst (VI32 47%Z)); FBasic (BOp (SNum2 (B_int W32 Iadd))); FBasic (BOp (SCvt (C_ext Ux))); FBasic (BOp (SNum2 (B_int W64 Ior))); FBasic (BOp (SStore SI64 32%Z)); FBasic (BGet 4); FBasic (BGet 4); FBasic (BConst (VI32 32%Z)); FBasic (BOp (SNum2 (B_int W32 Iadd))); FBasic (BOp (SStore SI32 16%Z)); FBasic (BGet 0); FBasic (BGet 1); FBasic (BGet 4); FBasic (BConst (VI32 8%Z)); FBasic (BOp (SNum2 (B_int W32 Iadd))); FBasic (BGet 2); FCallInd 4 0; FBasic (BGet 4); FBasic (BConst (VI32 48%Z)); FBasic (BOp (SNum2 (B_int W32 Iadd))); FBasic (BOp (SGlobalSet TI32 0)); FEnd]; b_bad := false |};
    PCode {| b_locals := [TI32; TI32; TI32; TI64; TI32; TI32; TI32; TI32]; b_badlocals := false; b_ops := [FBasic (BOp (SGlobalGet TI32 0)); FBasic (BConst (VI32 16%Z)); FBasic (BOp (SNum2 (B_int W32 Isub))); FBasic (BTee 2); FBasic (BOp (SGlobalSet TI32 0)); FBasic (BGet 1); FBasic (BOp (SLoad LI32 4%Z)); FBasic (BSet 3); FBasic (BGet 1); FBasic (BOp (SLoad LI32 0%Z)); FBasic (BSet 4); FBasic (BGet 0); FBasic (BOp (SLoad LI32_8u 0%Z)); FBasic (BSet 0); FBasic (BGet 2); FBasic (BConst (VI32 4%Z)); FBasic (BOp (SNum2 (B_int W32 Iadd))); FCall 62; FBasic (BGet 2); FBasic (BOp (SLoad LI64 8%Z)); FBasic (BSet 5); FBlock false [] []; FBasic (BGet 2); FBasic (BOp (SLoad LI32 4%Z)); FBasic (BTee 1); FBasic (BConst (VI32 (-2147483648)%Z)); FBasic (BOp (SNum2 (B_irel W32 Ine))); FBrIf 0; FBasic (BGet 5); FBasic (BConst (VI64 255%Z)); FBasic (BOp (SNum2 (B_int W64 Iand))); FBasic (BConst (VI64 3%Z)); FBasic (BOp (SNum2 (B_irel W64 Ine))); FBrIf 0; FBasic (BGet 5); FBasic (BConst (VI64 32%Z)); FBasic (BOp (SNum2 (B_int W64 Ishr_u))); FBasic (BOp (SCvt (C_wrap))); FBasic (BTee 6); FBasic (BOp (SLoad LI32 0%Z)); FBasic (BSet 7); FBlock false [] []; FBasic (BGet 6); FBasic (BConst (VI32 4%Z)); FBasic (BOp (SNum2 (B_int W32 Iadd))); FBasic (BOp (SLoad LI32 0%Z)); FBasic (BTee 8); FBasic (BOp (SLoad LI32 0%Z)); FBasic (BTee 9); FBasic (BOp (SNum1 (U_eqz W32))); FBrIf 0; FBasic (BGet 7); FBasic (BGet 9); FCallInd 1 0; FEnd; FBlock false [] []; FBasic (BGet 8); FBasic (BOp (SLoad LI32 4%Z)); FBasic (BTee 9); FBasic (BOp (SNum1 (U_eqz W32))); FBrIf 0; FBasic (BGet 7); FBasic (BGet 9); FBasic (BGet 8); FBasic (BOp (SLoad LI32 8%Z)); FCall 19; FEnd; FBasic (BGet 6); FBasic (BConst (VI32 12%Z)); FBasic (BConst (VI32 4%Z)); FCall 19; FEnd; FBlock false [] []; FBlock false [] []; FBlock false [] []; FBasic (BGet 4); FBasic (BConst (VI32 1052496%Z)); FBasic (BConst (VI32 17%Z)); FBasic (BGet 3); FBasic (BOp (SLoad LI32 12%Z)); FBasic (BTee 3); FCallInd 5 0; FBrIf 0; FBlock false [] []; FBasic (BGet 0); FBasic (BConst (VI32 1%Z)); FBasic (BOp (SNum2 (B_int W32 Iand))); FBrIf 0; FBasic (BGet 4); FBasic (BConst (VI32 1052513%Z)); FBasic (BConst (VI32 88%Z)); FBasic (BGet 3); FCallInd 5 0; FBrIf 1; FEnd; FBasic (BConst (VI32 0%Z)); FBasic (BSet 4); FBasic (BGet 1); FBasic (BConst (VI32 (-2147483648)%Z)); FBasic (BOp (SNum2 (B_int W32 Ior))); FBasic (BConst (VI32 (-2147483648)%Z)); FBasic (BOp (SNum2 (B_irel W32 Ieq))); FBrIf 2; FBr 1; FEnd; FBasic (BConst (VI32 1%Z)); FBasic (BSet 4); FBasic (BGet 1); FBasic (BConst (VI32 (-2147483648)%Z)); FBasic (BOp (SNum2 (B_int W32 Ior))); FBasic (BConst (VI32 (-2147483648)%Z)); FBasic (BOp (SNum2 (B_irel W32 Ieq))); FBrIf 1; FEnd; FBasic (BGet 5); FBasic (BOp (SCvt (C_wrap))); FBasic (BGet 1); FBasic (BConst (VI32 1%Z)); FCall 19; FEnd; FBasic (BGet 2); FBasic (BConst (VI32 16%Z)); FBasic (BOp (SNum2 (B_int W32 Iadd))); FBasic (BOp (SGlobalSet TI32 0)); FBasic (BGet 4); FEnd]; b_bad := false |};
    PCode {| b_locals := []; b_badlocals := false; b_ops := [FBasic (BGet 0); FCall 84; FUnreachable; FEnd]; b_bad := false |};
    PCode {| b_locals := [TI32; TI32; TI32]; b_badlocals := false; b_ops := [FBasic (BOp (SGlobalGet TI32 0)); FBasic (BConst (VI32 16%Z)); FBasic (BOp (SNum2 (B_int W32 Isub))); FBasic (BTee 1); FBasic (BOp (SGlobalSet TI32 0)); FBasic (BGet 0); FBasic (BOp (SLoad LI32 0%Z)); FBasic (BTee 2); FBasic (BOp (SLoad LI32 12%Z)); FBasic (BSet 3); FBlock false [] []; FBlock false [] []; FBlock false [] []; FBlock false [] []; FBasic (BGet 2); FBasic (BOp (SLoad LI32 4%Z)); FBrTable [0; 1] 2; FEnd; FBasic (BGet 3); FBrIf 1; FBasic (BConst (VI32 1%Z)); FBasic (BSet 2); FBasic (BConst (VI32 0%Z)); FBasic (BSet 3); FBr 2; FEnd; FBasic (BGet 3); FBrIf 0; FBasic (BGet 2); FBasic (BOp (SLoad LI32 0%Z)); FBasic (BTee 2); FBasic (BOp (SLoad LI32 4%Z)); FBasic (BSet 3); FBasic (BGet 2); FBasic (BOp (SLoad LI32 0%Z)); FBasic (BSet 2); FBr 1; FEnd; FBasic (BGet 1); FBasic (BConst (VI32 (-2147483648)%Z)); FBasic (BOp (SStore SI32 0%Z)); FBasic (BGet 1); FBasic (BGet 0); FBasic (BOp (SStore SI32 12%Z)); FBasic (BGet 1); FBasic (BConst (VI32 1053036%Z)); FBasic (BGet 0); FBasic (BOp (SLoad LI32 4%Z)); FBasic (BGet 0); FBasic (BOp (SLoad LI32 8%Z)); FBasic (BTee 0); FBasic (BOp (SLoad LI32_8u 8%Z)); FBasic (BGet 0); FBasic (BOp (SLoad LI32_8u 9%Z)); FCall 101; FUnreachable; FEnd; FBasic (BGet 1); FBasic (BGet 3); FBasic (BOp (SStore SI32 4%Z)); FBasic (BGet 1); FBasic (BGet 2); FBasic (BOp (SStore SI32 0%Z)); FBasic (BGet 1); FBasic (BConst (VI32 1053008%Z)); FBasic (BGet 0); FBasic (BOp (SLoad LI32 4%Z)); FBasic (BGet 0); FBasic (BOp (SLoad LI32 8%Z)); FBasic (BTee 0); FBasic (BOp (SLoad LI32_8u 8%Z)); FBasic (BGet 0); FBasic (BOp (SLoad LI32_8u 9%Z)); FCall 101; FUnreachable; FEnd]; b_bad := false |};
    PCode {| b_locals := [TI32; TI32; TI32; TI32]; b_badlocals := false; b_ops := [FBasic (BOp (SGlobalGet TI32 0)); FBasic (BConst (VI32 48%Z)); FBasic (BOp (SNum2 (B_int W32 Isub))); FBasic (BTee 2); FBasic (BOp (SGlobalSet TI32 0)); FBlock false [] []; FBasic (BConst (VI32 0%Z)); FBasic (BOp (SLoad LI32_8u 1057196%Z)); FBrIf 0; FBasic (BGet 2); FBasic (BConst (VI32 2%Z)); FBasic (BOp (SStore SI32 12%Z)); FBasic (BGet 2); FBasic (BConst (VI32 1052636%Z)); FBasic (BOp (SStore SI32 8%Z)); FBasic (BGet 2); FBasic (BConst (VI64 1%Z)); FBasic (BOp (SStore SI64 20%Z)); FBasic (BGet 2); FBasic (BConst (VI32 8%Z)); FBasic (BOp (SCvt (C_ext Ux))); FBasic (BConst (VI64 32%Z)); FBasic (BOp (SNum2 (B_int W64 Ishl))); FBasic (BGet 2); FBasic (BConst (VI32 40%Z)); FBasic (BOp (SNum2 (B_int W32 Iadd))); FBasic (BOp (SCvt (C_ext Ux))); FBasic (BOp (SNum2 (B_int W64 Ior))); FBasic (BOp (SStore SI64 32%Z)); FBasic (BGet 2); FBasic (BGet 1); FBasic (BOp (SStore SI32 40%Z)); FBasic (BGet 2); FBasic (BGet 2); FBasic (BConst (VI32 32%Z)); FBasic (BOp (SNum2 (B_int W32 Iadd))); FBasic (BOp (SStore SI32 16%Z)); FBasic (BGet 2); FBasic (BGet 2); FBasic (BConst (VI32 47%Z)); FBasic (BOp (SNum2 (B_int W32 Iadd))); FBasic (BGet 2); FBasic (BConst (VI32 8%Z)); FBasic (BOp (SNum2 (B_int W32 Iadd))); FCall 60; FBasic (BGet 2); FBasic (BOp (SLoad LI32 4%Z)); FBasic (BSet 3); FBlock false [] []; FBlock false [] []; FBasic (BGet 2); FBasic (BOp (SLoad LI32_8u 0%Z)); FBasic (BTee 1); FBasic (BConst (VI32 4%Z)); FBasic (BOp (SNum2 (B_irel W32 Igt_u))); FBrIf 0; FBasic (BGet 1); FBasic (BConst (VI32 3%Z)); FBasic (BOp (SNum2 (B_irel W32 Ine))); FBrIf 1; FEnd; FBasic (BGet 3); FBasic (BOp (SLoad LI32 0%Z)); FBasic (BSet 4); FBlock false [] []; FBasic (BGet 3); FBasic (BConst (VI32 4%Z)); FBasic (BOp (SNum2 (B_int W32 Iadd))); FBasic (BOp (SLoad LI32 0%Z)); FBasic (BTee 1); FBasic (BOp (SLoad LI32 0%Z)); FBasic (BTee 5); FBasic (BOp (SNum1 (U_eqz W32))); FBrIf 0; FBasic (BGet 4); FBasic (BGet 5); FCallInd 1 0; FEnd; FBlock false [] []; FBasic (BGet 1); FBasic (BOp (SLoad LI32 4%Z)); FBasic (BTee 5); FBasic (BOp (SNum1 (U_eqz W32))); FBrIf 0; FBasic (BGet 4); FBasic (BGet 5); FBasic (BGet 1); FBasic (BOp (SLoad LI32 8%Z)); FCall 19; FEnd; FBasic (BGet 3); FBasic (BConst (VI32 12%Z)); FBasic (BConst (VI32 4%Z)); FCall 19; FEnd; FBasic (BGet 2); FBasic (BConst (VI32 48%Z)); FBasic (BOp (SNum2 (B_int W32 Iadd))); FBasic (BOp (SGlobalSet TI32 0)); FReturn; FEnd; FBasic (BGet 2); FBasic (BConst (VI32 2%Z)); FBasic (BOp (SStore SI32 12%Z)); FBasic (BGet 2); FBasic (BConst (VI32 1052668%Z)); FBasic (BOp (SStore SI32 8%Z)); FBasic (BGet 2); FBasic (BConst (VI64 1%Z)); FBasic (BOp (SStore SI64 20%Z)); FBasic (BGet 2); FBasic (BGet 1); FBasic (BOp (SStore SI32 0%Z)); FBasic (BGet 2); FBasic (BConst (VI32 8%Z)); FBasic (BOp (SCvt (C_ext Ux))); FBasic (BConst (VI64 32%Z)); FBasic (BOp (SNum2 (B_int W64 Ishl))); FBasic (BGet 2); FBasic (BOp (SCvt (C_ext Ux))); FBasic (BOp (SNum2 (B_int W64 Ior))); FBasic (BOp (SStore SI64 32%Z)); FBasic (BGet 2); FBasic (BGet 2); FBasic (BConst (VI32 32%Z)); FBasic (BOp (SNum2 (B_int W32 Iadd))); FBasic (BOp (SStore SI32 16%Z)); FBasic (BGet 2); FBasic (BConst (VI32 8%Z)); FBasic (BOp (SNum2 (B_int W32 Iadd))); FBasic (BConst (VI32 1052708%Z)); FCall 152; FUnreachable; FEnd]; b_bad := false |};
    PCode {| b_locals := [TI32]; b_badlocals := false; b_ops := [FBasic (BOp (SGlobalGet TI32 0)); FBasic (BConst (VI32 16%Z)); FBasic (BOp (SNum2 (B_int W32 Isub))); FBasic (BTee 2); FBasic (BOp (SGlobalSet TI32 0)); FBlock false [] []; FBlock false [] []; FBlock false [] []; FBasic (BGet 1); FBasic (BConst (VI32 8%Z)); FBasic (BOp (SNum2 (B_irel W32 Igt_u))); FBrIf 0; FBasic (BGet 1); FBasic (BGet 0); FBasic (BOp (SNum2 (B_irel W32 Ile_u))); FBrIf 1; FEnd; FBasic (BGet 2); FBasic (BConst (VI32 0%Z)); FBasic (BOp (SStore SI32 12%Z)); FBasic (BGet 2); FBasic (BConst (VI32 12%Z)); FBasic (BOp (SNum2 (B_int W32 Iadd))); FBasic (BGet 1); FBasic (BConst (VI32 4%Z)); FBasic (BGet 1); FBasic (BConst (VI32 4%Z)); FBasic (BOp (SNum2 (B_irel W32 Igt_u))); FBasic (BSelect None); FBasic (BGet 0); FCall 120; FBasic (BSet 1); FBasic (BConst (VI32 0%Z)); FBasic (BGet 2); FBasic (BOp (SLoad LI32 12%Z)); FBasic (BGet 1); FBasic (BSelect None); FBasic (BSet 1); FBr 1; FEnd; FBasic (BGet 0); FCall 112; FBasic (BSet 1); FEnd; FBasic (BGet 2); FBasic (BConst (VI32 16%Z)); FBasic (BOp (SNum2 (B_int W32 Iadd))); FBasic (BOp (SGlobalSet TI32 0)); FBasic (BGet 1); FEnd]; b_bad := false |};
    PCode {| b_locals := []; b_badlocals := false; b_ops := [FBasic (BGet 0); FCall 115; FEnd]; b_bad := false |};
    PCode {| b_locals := [TI32; TI32]; b_badlocals := false; b_ops := [FBasic (BOp (SGlobalGet TI32 0)); FBasic (BConst (VI32 16%Z)); FBasic (BOp (SNum2 (B_int W32 Isub))); FBasic (BTee 4); FBasic (BOp (SGlobalSet TI32 0)); FBlock false [] []; FBlock false [] []; FBlock false [] []; FBasic (BGet 2); FBasic (BConst (VI32 8%Z)); FBasic (BOp (SNum2 (B_irel W32 Igt_u))); FBrIf 0; FBasic (BGet 2); FBasic (BGet 3); FBasic (BOp (SNum2 (B_irel W32 Ile_u))); FBrIf 1; FEnd; FBasic (BConst (VI32 0%Z)); FBasic (BSet 5); FBasic (BGet 4); FBasic (BConst (VI32 0%Z)); FBasic (BOp (SStore SI32 12%Z)); FBasic (BGet 4); FBasic (BConst (VI32 12%Z)); FBasic (BOp (SNum2 (B_int W32 Iadd))); FBasic (BGet 2); FBasic (BConst (VI32 4%Z)); FBasic (BGet 2); FBasic (BConst (VI32 4%Z)); FBasic (BOp (SNum2 (B_irel W32 Igt_u))); FBasic (BSelect None); FBasic (BGet 3); FCall 120; FBrIf 1; FBasic (BGet 4); FBasic (BOp (SLoad LI32 12%Z)); FBasic (BTee 2); FBasic (BOp (SNum1 (U_eqz W32))); FBrIf 1; FBlock false [] []; FBasic (BGet 3); FBasic (BGet 1); FBasic (BGet 3); FBasic (BGet 1); FBasic (BOp (SNum2 (B_irel W32 Ilt_u))); FBasic (BSelect None); FBasic (BTee 3); FBasic (BOp (SNum1 (U_eqz W32))); FBrIf 0; FBasic (BGet 2); FBasic (BGet 0); FBasic (BGet 3); FBasic (BOp SMemCopy); FEnd; FBasic (BGet 0); FCall 115; FBasic (BGet 2); FBasic (BSet 5); FBr 1; FEnd; FBasic (BGet 0); FBasic (BGet 3); FCall 118; FBasic (BSet 5); FEnd; FBasic (BGet 4); FBasic (BConst (VI32 16%Z)); FBasic (BOp (SNum2 (B_int W32 Iadd))); FBasic (BOp (SGlobalSet TI32 0)); FBasic (BGet 5); FEnd]; b_bad := false |};
    PCode {| b_locals := [TI32; TI32; TI32]; b_badlocals := false; b_ops := [FBasic (BOp (SGlobalGet TI32 0)); FBasic (BConst (VI32 16%Z)); FBasic (BOp (SNum2 (B_int W32 Isub))); FBasic (BTee 3); FBasic (BOp (SGlobalSet TI32 0)); FBasic (BGet 3); FBasic (BGet 1); FBasic (BGet 2); FBasic (BOp (SLoad LI32 12%Z)); FBasic (BTee 4); FCallInd 6 0; FBlock false [] []; FBlock false [] []; FBlock false [] []; FBasic (BGet 3); FBasic (BOp (SLoad LI64 0%Z)); FBasic (BConst (VI64 (-5076933981314334344)%Z)); FBasic (BOp (SNum2 (B_irel W64 Ine))); FBrIf 0; FBasic (BConst (VI32 4%Z)); FBasic (BSet 2); FBasic (BGet 1); FBasic (BSet 5); FBasic (BGet 3); FBasic (BOp (SLoad LI64 8%Z)); FBasic (BConst (VI64 7199936582794304877%Z)); FBasic (BOp (SNum2 (B_irel W64 Ieq))); FBrIf 1; FEnd; FBasic (BGet 3); FBasic (BGet 1); FBasic (BGet 4); FCallInd 6 0; FBasic (BConst (VI32 1053064%Z)); FBasic (BSet 2); FBasic (BConst (VI32 12%Z)); FBasic (BSet 4); FBasic (BGet 3); FBasic (BOp (SLoad LI64 0%Z)); FBasic (BConst (VI64 (-5190768330908619786)%Z)); FBasic (BOp (SNum2 (B_irel W64 Ine))); FBrIf 1; FBasic (BGet 3); FBasic (BOp (SLoad LI64 8%Z)); FBasic (BConst (VI64 3353964679774260343%Z)); FBasic (BOp (SNum2 (B_irel W64 Ine))); FBrIf 1; FBasic (BGet 1); FBasic (BConst (VI32 4%Z)); FBasic (BOp (SNum2 (B_int W32 Iadd))); FBasic (BSet 5); FBasic (BConst (VI32 8%Z)); FBasic (BSet 2); FEnd; FBasic (BGet 1); FBasic (BGet 2); FBasic (BOp (SNum2 (B_int W32 Iadd))); FBasic (BOp (SLoad LI32 0%Z)); FBasic (BSet 4); FBasic (BGet 5); FBasic (BOp (SLoad LI32 0%Z)); FBasic (BSet 2); FEnd; FBasic (BGet 0); FBasic (BGet 4); FBasic (BOp (SStore SI32 4%Z)); FBasic (BGet 0); FBasic (BGet 2); FBasic (BOp (SStore SI32 0%Z)); FBasic (BGet 3); FBasic (BConst (VI32 16%Z)); FBasic (BOp (SNum2 (B_int W32 Iadd))); FBasic (BOp (SGlobalSet TI32 0)); FEnd]; b_bad := false |};
    PCode {| b_locals := [TI32; TI32; TI64; TI32; TI32]; b_badlocals := false; b_ops := [FBasic (BOp (SGlobalGet TI32 0)); FBasic (BConst (VI32 32%Z)); FBasic (BOp (SNum2 (B_int W32 Isub))); FBasic (BTee 3); FBasic (BOp (SGlobalSet TI32 0)); FCall 80; FBasic (BSet 4); FBasic (BGet 0); FBasic (BOp (SLoad LI64 0%Z)); FBasic (BSet 5); FBasic (BGet 3); FBasic (BGet 2); FBasic (BOp (SStore SI32 20%Z)); FBasic (BGet 3); FBasic (BGet 1); FBasic (BOp (SStore SI32 16%Z)); FBasic (BGet 3); FBasic (BGet 5); FBasic (BOp (SStore SI64 8%Z)); FBlock false [] []; FBlock false [] []; FBasic (BConst (VI32 0%Z)); FBasic (BOp (SLoad LI32 1057308%Z)); FBasic (BTee 6); FBasic (BConst (VI32 2%Z)); FBasic (BOp (SNum2 (B_irel W32 Igt_u))); FBrIf 0; FBlock false [] []; FBlock false [] []; FBasic (BConst (VI32 0%Z)); FBasic (BOp (SLoad LI64 1057288%Z)); FBasic (BTee 5); FBasic (BOp (SNum1 (U_eqz W64))); FBrIf 0; FBasic (BConst (VI32 0%Z)); FBasic (BOp (SLoad LI64 1057272%Z)); FBasic (BGet 5); FBasic (BOp (SNum2 (B_irel W64 Ieq))); FBrIf 1; FEnd; FBasic (BGet 3); FBasic (BConst (VI32 8%Z)); FBasic (BOp (SNum2 (B_int W32 Iadd))); FBasic (BConst (VI32 0%Z)); FBasic (BGet 3); FCall 91; FBr 2; FEnd; FBasic (BGet 3); FBasic (BConst (VI32 8%Z)); FBasic (BOp (SNum2 (B_int W32 Iadd))); FBasic (BConst (VI32 1051748%Z)); FBasic (BConst (VI32 4%Z)); FCall 91; FBr 1; FEnd; FBlock false [] []; FBasic (BGet 6); FBasic (BOp (SLoad LI32 8%Z)); FBasic (BTee 7); FBasic (BOp (SNum1 (U_eqz W32))); FBrIf 0; FBasic (BGet 3); FBasic (BConst (VI32 8%Z)); FBasic (BOp (SNum2 (B_int W32 Iadd))); FBasic (BGet 7); FBasic (BGet 6); FBasic (BConst (VI32 12%Z)); FBasic (BOp (SNum2 (B_int W32 Iadd))); FBasic (BOp (SLoad LI32 0%Z)); FBasic (BConst (VI32 (-1)%Z)); FBasic (BOp (SNum2 (B_int W32 Iadd))); FCall 91; FBr 1; FEnd; FBlock false [] []; FBasic (BGet 6); FBasic (BOp (SLoad LI64 0%Z)); FBasic (BConst (VI32 0%Z)); FBasic (BOp (SLoad LI64 1057288%Z)); FBasic (BOp (SNum2 (B_irel W64 Ine))); FBrIf 0; FBasic (BGet 3); FBasic (BConst (VI32 8%Z)); FBasic (BOp (SNum2 (B_int W32 Iadd))); FBasic (BConst (VI32 1051748%Z)); FBasic (BConst (VI32 4%Z)); FCall 91; FBr 1; FEnd; FBasic (BGet 3); FBasic (BConst (VI32 8%Z)); FBasic (BOp (SNum2 (B_int W32 Iadd))); FBasic (BConst (VI32 0%Z)); FBasic (BGet 3); FCall 91; FEnd; FBlock false [] []; FBlock false [] []; FBlock false [] []; FBlock false [] []; FBasic (BGet 0); FBasic (BOp (SLoad LI32 8%Z)); FBasic (BOp (SLoad LI32_8u 0%Z)); FBrTable [0; 1; 2; 3] 0; FEnd; FBasic (BGet 3); FBasic (BConst (VI32 8%Z)); FBasic (BOp (SNum2 (B_int W32 Iadd))); FBasic (BGet 1); FBasic (BGet 2); FBasic (BOp (SLoad LI32 36%Z)); FBasic (BConst (VI32 0%Z)); FCall 81; FBasic (BGet 3); FBasic (BOp (SLoad LI32_8u 8%Z)); FBasic (BGet 3); FBasic (BOp (SLoad LI32 12%Z)); FCall 50; FBr 2; FEnd; FBasic (BGet 3); FBasic (BConst (VI32 8%Z)); FBasic (BOp (SNum2 (B_int W32 Iadd))); FBasic (BGet 1); FBasic (BGet 2); FBasic (BOp (SLoad LI32 36%Z)); FBasic (BConst (VI32 1%Z)); FCall 81; FBasic (BGet 3); FBasic (BOp (SLoad LI32_8u 8%Z)); FBasic (BGet 3); FBasic (BOp (SLoad LI32 12%Z)); FCall 50; FBr 1; FEnd; FBasic (BConst (VI32 0%Z)); FBasic (BOp (SLoad LI32_8u 1057180%Z)); FBasic (BSet 0); FBasic (BConst (VI32 0%Z)); FBasic (BConst (VI32 0%Z)); FBasic (BOp (SStore SI32_8 1057180%Z)); FBasic (BGet 0); FBasic (BOp (SNum1 (U_eqz W32))); FBrIf 0; FBasic (BGet 3); FBasic (BConst (VI32 0%Z)); FBasic (BOp (SStore SI32 24%Z)); FBasic (BGet 3); FBasic (BConst (VI32 1%Z)); FBasic (BOp (SStore SI32 12%Z)); FBasic (BGet 3); FBasic (BConst (VI32 1052884%Z)); FBasic (BOp (SStore SI32 8%Z)); FBasic (BGet 3); FBasic (BConst (VI64 4%Z)); FBasic (BOp (SStore SI64 16%Z)); FBasic (BGet 3); FBasic (BGet 1); FBasic (BGet 3); FBasic (BConst (VI32 8%Z)); FBasic (BOp (SNum2 (B_int W32 Iadd))); FBasic (BGet 2); FBasic (BOp (SLoad LI32 36%Z)); FCallInd 4 0; FBasic (BGet 3); FBasic (BOp (SLoad LI32_8u 0%Z)); FBasic (BGet 3); FBasic (BOp (SLoad LI32 4%Z)); FCall 50; FEnd; FBasic (BGet 4); FBasic (BConst (VI32 0%Z)); FBasic (BOp (SStore SI32_8 0%Z)); FBasic (BGet 3); FBasic (BConst (VI32 32%Z)); FBasic (BOp (SNum2 (B_int W32 Iadd))); FBasic (BOp (SGlobalSet TI32 0)); FEnd]; b_bad := false |};
    PCode {| b_locals := [TI32; TI64; TI64; TI64; TI32; TI32]; b_badlocals := false; b_ops := [FBasic (BOp (SGlobalGet TI32 0)); FBasic (BConst (VI32 592%Z)); FBasic (BOp (SNum2 (B_int W32 Isub))); FBasic (BTee 3); FBasic (BOp (SGlobalSet TI32 0)); FBasic (BGet 3); FBasic (BGet 2); FBasic (BConst (VI32 9%Z)); FBasic (BGet 1); FBasic (BSelect None); FBasic (BOp (SStore SI32 4%Z)); FBasic (BGet 3); FBasic (BGet 1); FBasic (BConst (VI32 1052892%Z)); FBasic (BGet 1); FBasic (BSelect None); FBasic (BOp (SStore SI32 0%Z)); FBlock false [] []; FBasic (BConst (VI32 512%Z)); FBasic (BOp (SNum1 (U_eqz W32))); FBrIf 0; FBasic (BGet 3); FBasic (BConst (VI32 8%Z)); FBasic (BOp (SNum2 (B_int W32 Iadd))); FBasic (BConst (VI32 0%Z)); FBasic (BConst (VI32 512%Z)); FBasic (BOp SMemFill); FEnd; FBasic (BGet 3); FBasic (BConst (VI64 0%Z)); FBasic (BOp (SStore SI64 528%Z)); FBasic (BGet 3); FBasic (BConst (VI32 512%Z)); FBasic (BOp (SStore SI32 524%Z)); FBasic (BGet 3); FBasic (BGet 3); FBasic (BConst (VI32 8%Z)); FBasic (BOp (SNum2 (B_int W32 Iadd))); FBasic (BOp (SStore SI32 520%Z)); FBasic (BGet 0); FBasic (BOp (SLoad LI64_32u 0%Z)); FBasic (BSet 4); FBasic (BGet 0); FBasic (BOp (SLoad LI64_32u 4%Z)); FBasic (BSet 5); FBasic (BGet 3); FBasic (BConst (VI32 1052944%Z)); FBasic (BOp (SStore SI32 544%Z)); FBasic (BGet 3); FBasic (BConst (VI64 3%Z)); FBasic (BOp (SStore SI64 556%Z)); FBasic (BGet 3); FBasic (BGet 5); FBasic (BConst (VI32 7%Z)); FBasic (BOp (SCvt (C_ext Ux))); FBasic (BConst (VI64 32%Z)); FBasic (BOp (SNum2 (B_int W64 Ishl))); FBasic (BTee 6); FBasic (BOp (SNum2 (B_int W64 Ior))); FBasic (BTee 5); FBasic (BOp (SStore SI64 584%Z)); FBasic (BGet 3); FBasic (BGet 4); FBasic (BConst (VI32 10%Z)); FBasic (BOp (SCvt (C_ext Ux))); FBasic (BConst (VI64 32%Z)); FBasic (BOp (SNum2 (B_int W64 Ishl))); FBasic (BOp (SNum2 (B_int W64 Ior))); FBasic (BTee 4); FBasic (BOp (SStore SI64 576%Z)); FBasic (BGet 3); FBasic (BGet 6); FBasic (BGet 3); FBasic (BOp (SCvt (C_ext Ux))); FBasic (BOp (SNum2 (B_int W64 Ior))); FBasic (BTee 6); FBasic (BOp (SStore SI64 568%Z)); FBasic (BGet 3); FBasic (BGet 3); FBasic (BConst (VI32 568%Z)); FBasic (BOp (SNum2 (B_int W32 Iadd))); FBasic (BOp (SStore SI32 552%Z)); FBasic (BGet 3); FBasic (BConst (VI32 4%Z)); FBasic (BOp (SStore SI32 548%Z)); FBasic (BGet 3); FBasic (BConst (VI32 536%Z)); FBasic (BOp (SNum2 (B_int W32 Iadd))); FBasic (BGet 3); FBasic (BConst (VI32 520%Z)); FBasic (BOp (SNum2 (B_int W32 Iadd))); FBasic (BGet 3); FBasic (BConst (VI32 544%Z)); FBasic (BOp (SNum2 (B_int W32 Iadd))); FCall 76; FBlock false [] []; FBlock false [] []; FBlock false [] []; FBasic (BGet 3); FBasic (BOp (SLoad LI32_8u 536%Z)); FBasic (BTee 1); FBasic (BConst (VI32 4%Z)); FBasic (BOp (SNum2 (B_irel W32 Ine))); FBrIf 0; FBasic (BGet 3); FBasic (BOp (SLoad LI32 528%Z)); FBasic (BTee 1); FBasic (BConst (VI32 513%Z)); FBasic (BOp (SNum2 (B_irel W32 Ige_u))); FBrIf 2; FBasic (BGet 3); FBasic (BConst (VI32 568%Z)); FBasic (BOp (SNum2 (B_int W32 Iadd))); FBasic (BGet 0); FBasic (BOp (SLoad LI32 8%Z)); FBasic (BGet 3); FBasic (BConst (VI32 8%Z)); FBasic (BOp (SNum2 (B_int W32 Iadd))); FBasic (BGet 1); FBasic (BGet 0); FBasic (BOp (SLoad LI32 12%Z)); FBasic (BOp (SLoad LI32 28%Z)); FCallInd 7 0; FBasic (BGet 3); FBasic (BOp (SLoad LI32 572%Z)); FBasic (BSet 1); FBlock false [] []; FBasic (BGet 3); FBasic (BOp (SLoad LI32_8u 568%Z)); FBasic (BTee 0); FBasic (BConst (VI32 4%Z)); FBasic (BOp (SNum2 (B_irel W32 Igt_u))); FBrIf 0; FBasic (BGet 0); FBasic (BConst (VI32 3%Z)); FBasic (BOp (SNum2 (B_irel W32 Ine))); FBrIf 2; FEnd; FBasic (BGet 1); FBasic (BOp (SLoad LI32 0%Z)); FBasic (BSet 2); FBlock false [] []; FBasic (BGet 1); FBasic (BConst (VI32 4%Z)); FBasic (BOp (SNum2 (B_int W32 Iadd))); FBasic (BOp (SLoad LI32 0%Z)); FBasic (BTee 0); FBasic (BOp (SLoad LI32 0%Z)); FBasic (BTee 7); FBasic (BOp (SNum1 (U_eqz W32))); FBrIf 0; FBasic (BGet 2); FBasic (BGet 7); FCallInd 1 0; FEnd; FBlock false [] []; FBasic (BGet 0); FBasic (BOp (SLoad LI32 4%Z)); FBasic (BTee 7); FBasic (BOp (SNum1 (U_eqz W32))); FBrIf 0; FBasic (BGet 2); FBasic (BGet 7); FBasic (BGet 0); FBasic (BOp (SLoad LI32 8%Z)); FCall 19; FEnd; FBasic (BGet 1); FBasic (BConst (VI32 12%Z)); FBasic (BConst (VI32 4%Z)); FCall 19; FBr 1; FEnd; FBlock false [] []; FBasic (BGet 1); FBasic (BConst (VI32 3%Z)); FBasic (BOp (SNum2 (B_irel W32 Ilt_u))); FBrIf 0; FBasic (BGet 3); FBasic (BOp (SLoad LI32 540%Z)); FBasic (BTee 1); FBasic (BOp (SLoad LI32 0%Z)); FBasic (BSet 7); FBlock false [] []; FBasic (BGet 1); FBasic (BConst (VI32 4%Z)); FBasic (BOp (SNum2 (B_int W32 Iadd))); FBasic (BOp (SLoad LI32 0%Z)); FBasic (BTee 2); FBasic (BOp (SLoad LI32 0%Z)); FBasic (BTee 8); FBasic (BOp (SNum1 (U_eqz W32))); FBrIf 0; FBasic (BGet 7); FBasic (BGet 8); FCallInd 1 0; FEnd; FBlock false [] []; FBasic (BGet 2); FBasic (BOp (SLoad LI32 4%Z)); FBasic (BTee 8); FBasic (BOp (SNum1 (U_eqz W32))); FBrIf 0; FBasic (BGet 7); FBasic (BGet 8); FBasic (BGet 2); FBasic (BOp (SLoad LI32 8%Z)); FCall 19; FEnd; FBasic (BGet 1); FBasic (BConst (VI32 12%Z)); FBasic (BConst (VI32 4%Z)); FCall 19; FEnd; FBasic (BGet 0); FBasic (BOp (SLoad LI32 12%Z)); FBasic (BConst (VI32 36%Z)); FBasic (BOp (SNum2 (B_int W32 Iadd))); FBasic (BOp (SLoad LI32 0%Z)); FBasic (BSet 1); FBasic (BGet 0); FBasic (BOp (SLoad LI32 8%Z)); FBasic (BSet 0); FBasic (BGet 3); FBasic (BConst (VI32 1052944%Z)); FBasic (BOp (SStore SI32 544%Z)); FBasic (BGet 3); FBasic (BConst (VI64 3%Z)); FBasic (BOp (SStore SI64 556%Z)); FBasic (BGet 3); FBasic (BGet 5); FBasic (BOp (SStore SI64 584%Z)); FBasic (BGet 3); FBasic (BGet 4); FBasic (BOp (SStore SI64 576%Z)); FBasic (BGet 3); FBasic (BGet 6); FBasic (BOp (SStore SI64 568%Z)); FBasic (BGet 3); FBasic (BGet 3); FBasic (BConst (VI32 568%Z)); FBasic (BOp (SNum2 (B_int W32 Iadd))); FBasic (BOp (SStore SI32 552%Z)); FBasic (BGet 3); FBasic (BConst (VI32 4%Z)); FBasic (BOp (SStore SI32 548%Z)); FBasic (BGet 3); FBasic (BConst (VI32 536%Z)); FBasic (BOp (SNum2 (B_int W32 Iadd))); FBasic (BGet 0); FBasic (BGet 3); FBasic (BConst (VI32 544%Z)); FBasic (BOp (SNum2 (B_int W32 Iadd))); FBasic (BGet 1); FCallInd 4 0; FBasic (BGet 3); FBasic (BOp (SLoad LI32 540%Z)); FBasic (BSet 1); FBlock false [] []; FBasic (BGet 3); FBasic (BOp (SLoad LI32_8u 536%Z)); FBasic (BTee 0); FBasic (BConst (VI32 4%Z)); FBasic (BOp (SNum2 (B_irel W32 Igt_u))); FBrIf 0; FBasic (BGet 0); FBasic (BConst (VI32 3%Z)); FBasic (BOp (SNum2 (B_irel W32 Ine))); FBrIf 1; FEnd; FBasic (BGet 1); FBasic (BOp (SLoad LI32 0%Z)); FBasic (BSet 2); FBlock false [] []; FBasic (BGet 1); FBasic (BConst (VI32 4%Z)); FBasic (BOp (SNum2 (B_int W32 Iadd))); FBasic (BOp (SLoad LI32 0%Z)); FBasic (BTee 0); FBasic (BOp (SLoad LI32 0%Z)); FBasic (BTee 7); FBasic (BOp (SNum1 (U_eqz W32))); FBrIf 0; FBasic (BGet 2); FBasic (BGet 7); FCallInd 1 0; FEnd; FBlock false [] []; FBasic (BGet 0); FBasic (BOp (SLoad LI32 4%Z)); FBasic (BTee 7); FBasic (BOp (SNum1 (U_eqz W32))); FBrIf 0; FBasic (BGet 2); FBasic (BGet 7); FBasic (BGet 0); FBasic (BOp (SLoad LI32 8%Z)); FCall 19; FEnd; FBasic (BGet 1); FBasic (BConst (VI32 12%Z)); FBasic (BConst (VI32 4%Z)); FCall 19; FEnd; FBasic (BGet 3); FBasic (BConst (VI32 592%Z)); FBasic (BOp (SNum2 (B_int W32 Iadd))); FBasic (BOp (SGlobalSet TI32 0)); FReturn; FEnd; FBasic (BGet 1); FBasic (BConst (VI32 512%Z)); FBasic (BConst (VI32 1052904%Z)); FCall 149; FUnreachable; FEnd]; b_bad := false |};
    PCode {| b_locals := [TI32; TI32]; b_badlocals := false; b_ops := [FBasic (BConst (VI32 0%Z)); FBasic (BSet 1); FBasic (BConst (VI32 0%Z)); FBasic (BConst (VI32 0%Z)); FBasic (BOp (SLoad LI32 1057268%Z)); FBasic (BTee 2); FBasic (BConst (VI32 1%Z)); FBasic (BOp (SNum2 (B_int W32 Iadd))); FBasic (BOp (SStore SI32 1057268%Z)); FBlock false [] []; FBasic (BGet 2); FBasic (BConst (VI32 0%Z)); FBasic (BOp (SNum2 (B_irel W32 Ilt_s))); FBrIf 0; FBasic (BConst (VI32 1%Z)); FBasic (BSet 1); FBasic (BConst (VI32 0%Z)); FBasic (BOp (SLoad LI32_8u 1057300%Z)); FBrIf 0; FBasic (BConst (VI32 0%Z)); FBasic (BGet 0); FBasic (BOp (SStore SI32_8 1057300%Z)); FBasic (BConst (VI32 0%Z)); FBasic (BConst (VI32 0%Z)); FBasic (BOp (SLoad LI32 1057296%Z)); FBasic (BConst (VI32 1%Z)); FBasic (BOp (SNum2 (B_int W32 Iadd))); FBasic (BOp (SStore SI32 1057296%Z)); FBasic (BConst (VI32 2%Z)); FBasic (BSet 1); FEnd; FBasic (BGet 1); FEnd]; b_bad := false |};
    PCode {| b_locals := [TI32; TI64]; b_badlocals := false; b_ops := [FBasic (BOp (SGlobalGet TI32 0)); FBasic (BConst (VI32 16%Z)); FBasic (BOp (SNum2 (B_int W32 Isub))); FBasic (BTee 1); FBasic (BOp (SGlobalSet TI32 0)); FBasic (BGet 0); FBasic (BOp (SLoad LI64 0%Z)); FBasic (BSet 2); FBasic (BGet 1); FBasic (BGet 0); FBasic (BOp (SStore SI32 12%Z)); FBasic (BGet 1); FBasic (BGet 2); FBasic (BOp (SStore SI64 4%Z)); FBasic (BGet 1); FBasic (BConst (VI32 4%Z)); FBasic (BOp (SNum2 (B_int W32 Iadd))); FCall 83; FUnreachable; FEnd]; b_bad := false |};
    PCode {| b_locals := [TI32; TI32; TI32; TI64]; b_badlocals := false; b_ops := [FBasic (BOp (SGlobalGet TI32 0)); FBasic (BConst (VI32 64%Z)); FBasic (BOp (SNum2 (B_int W32 Isub))); FBasic (BTee 2); FBasic (BOp (SGlobalSet TI32 0)); FBlock false [] []; FBasic (BGet 1); FBasic (BOp (SLoad LI32 0%Z)); FBasic (BConst (VI32 (-2147483648)%Z)); FBasic (BOp (SNum2 (B_irel W32 Ine))); FBrIf 0; FBasic (BGet 1); FBasic (BOp (SLoad LI32 12%Z)); FBasic (BSet 3); FBasic (BGet 2); FBasic (BConst (VI32 28%Z)); FBasic (BOp (SNum2 (B_int W32 Iadd))); FBasic (BConst (VI32 8%Z)); FBasic (BOp (SNum2 (B_int W32 Iadd))); FBasic (BTee 4); FBasic (BConst (VI32 0%Z)); FBasic (BOp (SStore SI32 0%Z)); FBasic (BGet 2); FBasic (BConst (VI64 4294967296%Z)); FBasic (BOp (SStore SI64 28%Z)); FBasic (BGet 2); FBasic (BConst (VI32 40%Z)); FBasic (BOp (SNum2 (B_int W32 Iadd))); FBasic (BConst (VI32 8%Z)); FBasic (BOp (SNum2 (B_int W32 Iadd))); FBasic (BGet 3); FBasic (BOp (SLoad LI32 0%Z)); FBasic (BTee 3); FBasic (BConst (VI32 8%Z)); FBasic (BOp (SNum2 (B_int W32 Iadd))); FBasic (BOp (SLoad LI64 0%Z)); FBasic (BOp (SStore SI64 0%Z)); FBasic (BGet 2); FBasic (BConst (VI32 40%Z)); FBasic (BOp (SNum2 (B_int W32 Iadd))); FBasic (BConst (VI32 16%Z)); FBasic (BOp (SNum2 (B_int W32 Iadd))); FBasic (BGet 3); FBasic (BConst (VI32 16%Z)); FBasic (BOp (SNum2 (B_int W32 Iadd))); FBasic (BOp (SLoad LI64 0%Z)); FBasic (BOp (SStore SI64 0%Z)); FBasic (BGet 2); FBasic (BGet 3); FBasic (BOp (SLoad LI64 0%Z)); FBasic (BOp (SStore SI64 40%Z)); FBasic (BGet 2); FBasic (BConst (VI32 28%Z)); FBasic (BOp (SNum2 (B_int W32 Iadd))); FBasic (BConst (VI32 1051484%Z)); FBasic (BGet 2); FBasic (BConst (VI32 40%Z)); FBasic (BOp (SNum2 (B_int W32 Iadd))); FCall 153; FBasic BDrop; FBasic (BGet 2); FBasic (BConst (VI32 16%Z)); FBasic (BOp (SNum2 (B_int W32 Iadd))); FBasic (BConst (VI32 8%Z)); FBasic (BOp (SNum2 (B_int W32 Iadd))); FBasic (BGet 4); FBasic (BOp (SLoad LI32 0%Z)); FBasic (BTee 3); FBasic (BOp (SStore SI32 0%Z)); FBasic (BGet 2); FBasic (BGet 2); FBasic (BOp (SLoad LI64 28%Z)); FBasic (BTee 5); FBasic (BOp (SStore SI64 16%Z)); FBasic (BGet 1); FBasic (BConst (VI32 8%Z)); FBasic (BOp (SNum2 (B_int W32 Iadd))); FBasic (BGet 3); FBasic (BOp (SStore SI32 0%Z)); FBasic (BGet 1); FBasic (BGet 5); FBasic (BOp (SStore SI64 0%Z)); FEnd; FBasic (BGet 1); FBasic (BOp (SLoad LI64 0%Z)); FBasic (BSet 5); FBasic (BGet 1); FBasic (BConst (VI64 4294967296%Z)); FBasic (BOp (SStore SI64 0%Z)); FBasic (BGet 2); FBasic (BConst (VI32 8%Z)); FBasic (BOp (SNum2 (B_int W32 Iadd))); FBasic (BTee 3); FBasic (BGet 1); FBasic (BConst (VI32 8%Z)); FBasic (BOp (SNum2 (B_int W32 Iadd))); FBasic (BTee 1); FBasic (BOp (SLoad LI32 0%Z)); FBasic (BOp (SStore SI32 0%Z)); FBasic (BGet 1); FBasic (BConst (VI32 0%Z)); FBasic (BOp (SStore SI32 0%Z)); FBasic (BConst (VI32 0%Z)); FBasic (BOp (SLoad LI32_8u 1057197%Z)); FBasic BDrop; FBasic (BGet 2); FBasic (BGet 5); FBasic (BOp (SStore SI64 0%Z)); FBlock false [] []; FBasic (BConst (VI32 12%Z)); FBasic (BConst (VI32 4%Z)); FCall 18; FBasic (BTee 1); FBrIf 0; FBasic (BConst (VI32 4%Z)); FBasic (BConst (VI32 12%Z)); FCall 145; FUnreachable; FEnd; FBasic (BGet 1); FBasic (BGet 2); FBasic (BOp (SLoad LI64 0%Z)); FBasic (BOp (SStore SI64 0%Z)); FBasic (BGet 1); FBasic (BConst (VI32 8%Z)); FBasic (BOp (SNum2 (B_int W32 Iadd))); FBasic (BGet 3); FBasic (BOp (SLoad LI32 0%Z)); FBasic (BOp (SStore SI32 0%Z)); FBasic (BGet 0); FBasic (BConst (VI32 1052976%Z)); FBasic (BOp (SStore SI32 4%Z)); FBasic (BGet 0); FBasic (BGet 1); FBasic (BOp (SStore SI32 0%Z)); FBasic (BGet 2); FBasic (BConst (VI32 64%Z)); FBasic (BOp (SNum2 (B_int W32 Iadd))); FBasic (BOp (SGlobalSet TI32 0)); FEnd]; b_bad := false |};
    PCode {| b_locals := [TI32; TI32; TI32; TI64]; b_badlocals := false; b_ops := [FBasic (BOp (SGlobalGet TI32 0)); FBasic (BConst (VI32 48%Z)); FBasic (BOp (SNum2 (B_int W32 Isub))); FBasic (BTee 2); FBasic (BOp (SGlobalSet TI32 0)); FBlock false [] []; FBasic (BGet 1); FBasic (BOp (SLoad LI32 0%Z)); FBasic (BConst (VI32 (-2147483648)%Z)); FBasic (BOp (SNum2 (B_irel W32 Ine))); FBrIf 0; FBasic (BGet 1); FBasic (BOp (SLoad LI32 12%Z)); FBasic (BSet 3); FBasic (BGet 2); FBasic (BConst (VI32 12%Z)); FBasic (BOp (SNum2 (B_int W32 Iadd))); FBasic (BConst (VI32 8%Z)); FBasic (BOp (SNum2 (B_int W32 Iadd))); FBasic (BTee 4); FBasic (BConst (VI32 0%Z)); FBasic (BOp (SStore SI32 0%Z)); FBasic (BGet 2); FBasic (BConst (VI64 4294967296%Z)); FBasic (BOp (SStore SI64 12%Z)); FBasic (BGet 2); FBasic (BConst (VI32 24%Z)); FBasic (BOp (SNum2 (B_int W32 Iadd))); FBasic (BConst (VI32 8%Z)); FBasic (BOp (SNum2 (B_int W32 Iadd))); FBasic (BGet 3); FBasic (BOp (SLoad LI32 0%Z)); FBasic (BTee 3); FBasic (BConst (VI32 8%Z)); FBasic (BOp (SNum2 (B_int W32 Iadd))); FBasic (BOp (SLoad LI64 0%Z)); FBasic (BOp (SStore SI64 0%Z)); FBasic (BGet 2); FBasic (BConst (VI32 24%Z)); FBasic (BOp (SNum2 (B_int W32 Iadd))); FBasic (BConst (VI32 16%Z)); FBasic (BOp (SNum2 (B_int W32 Iadd))); FBasic (BGet 3); FBasic (BConst (VI32 16%Z)); FBasic (BOp (SNum2 (B_int W32 Iadd))); FBasic (BOp (SLoad LI64 0%Z)); FBasic (BOp (SStore SI64 0%Z)); FBasic (BGet 2); FBasic (BGet 3); FBasic (BOp (SLoad LI64 0%Z)); FBasic (BOp (SStore SI64 24%Z)); FBasic (BGet 2); FBasic (BConst (VI32 12%Z)); FBasic (BOp (SNum2 (B_int W32 Iadd))); FBasic (BConst (VI32 1051484%Z)); FBasic (BGet 2); FBasic (BConst (VI32 24%Z)); FBasic (BOp (SNum2 (B_int W32 Iadd))); FCall 153; FBasic BDrop; FBasic (BGet 2); FBasic (BConst (VI32 8%Z)); FBasic (BOp (SNum2 (B_int W32 Iadd))); FBasic (BGet 4); FBasic (BOp (SLoad LI32 0%Z)); FBasic (BTee 3); FBasic (BOp (SStore SI32 0%Z)); FBasic (BGet 2); FBasic (BGet 2); FBasic (BOp (SLoad LI64 12%Z)); FBasic (BTee 5); FBasic (BOp (SStore SI64 0%Z)); FBasic (BGet 1); FBasic (BConst (VI32 8%Z)); FBasic (BOp (SNum2 (B_int W32 Iadd))); FBasic (BGet 3); FBasic (BOp (SStore SI32 0%Z)); FBasic (BGet 1); FBasic (BGet 5); FBasic (BOp (SStore SI64 0%Z)); FEnd; FBasic (BGet 0); FBasic (BConst (VI32 1052976%Z)); FBasic (BOp (SStore SI32 4%Z)); FBasic (BGet 0); FBasic (BGet 1); FBasic (BOp (SStore SI32 0%Z)); FBasic (BGet 2); FBasic (BConst (VI32 48%Z)); FBasic (BOp (SNum2 (B_int W32 Iadd))); FBasic (BOp (SGlobalSet TI32 0)); FEnd]; b_bad := false |};
    PCode {| b_locals := [TI32]; b_badlocals := false; b_ops := [FBasic (BOp (SGlobalGet TI32 0)); FBasic (BConst (VI32 32%Z)); FBasic (BOp (SNum2 (B_int W32 Isub))); FBasic (BTee 2); FBasic (BOp (SGlobalSet TI32 0)); FBlock false [] []; FBlock false [] []; FBasic (BGet 0); FBasic (BOp (SLoad LI32 0%Z)); FBasic (BConst (VI32 (-2147483648)%Z)); FBasic (BOp (SNum2 (B_irel W32 Ieq))); FBrIf 0; FBasic (BGet 1); FBasic (BGet 0); FBasic (BOp (SLoad LI32 4%Z)); FBasic (BGet 0); FBasic (BOp (SLoad LI32 8%Z)); FCall 182; FBasic (BSet 0); FBr 1; FEnd; FBasic (BGet 2); FBasic (BConst (VI32 8%Z)); FBasic (BOp (SNum2 (B_int W32 Iadd))); FBasic (BConst (VI32 8%Z)); FBasic (BOp (SNum2 (B_int W32 Iadd))); FBasic (BGet 0); FBasic (BOp (SLoad LI32 12%Z)); FBasic (BOp (SLoad LI32 0%Z)); FBasic (BTee 0); FBasic (BConst (VI32 8%Z)); FBasic (BOp (SNum2 (B_int W32 Iadd))); FBasic (BOp (SLoad LI64 0%Z)); FBasic (BOp (SStore SI64 0%Z)); FBasic (BGet 2); FBasic (BConst (VI32 8%Z)); FBasic (BOp (SNum2 (B_int W32 Iadd))); FBasic (BConst (VI32 16%Z)); FBasic (BOp (SNum2 (B_int W32 Iadd))); FBasic (BGet 0); FBasic (BConst (VI32 16%Z)); FBasic (BOp (SNum2 (B_int W32 Iadd))); FBasic (BOp (SLoad LI64 0%Z)); FBasic (BOp (SStore SI64 0%Z)); FBasic (BGet 2); FBasic (BGet 0); FBasic (BOp (SLoad LI64 0%Z)); FBasic (BOp (SStore SI64 8%Z)); FBasic (BGet 1); FBasic (BOp (SLoad LI32 0%Z)); FBasic (BGet 1); FBasic (BOp (SLoad LI32 4%Z)); FBasic (BGet 2); FBasic (BConst (VI32 8%Z)); FBasic (BOp (SNum2 (B_int W32 Iadd))); FCall 153; FBasic (BSet 0); FEnd; FBasic (BGet 2); FBasic (BConst (VI32 32%Z)); FBasic (BOp (SNum2 (B_int W32 Iadd))); FBasic (BOp (SGlobalSet TI32 0)); FBasic (BGet 0); FEnd]; b_bad := false |};
    PCode {| b_locals := [TI32; TI32]; b_badlocals := false; b_ops := [FBasic (BConst (VI32 0%Z)); FBasic (BOp (SLoad LI32_8u 1057197%Z)); FBasic BDrop; FBasic (BGet 1); FBasic (BOp (SLoad LI32 4%Z)); FBasic (BSet 2); FBasic (BGet 1); FBasic (BOp (SLoad LI32 0%Z)); FBasic (BSet 3); FBlock false [] []; FBasic (BConst (VI32 8%Z)); FBasic (BConst (VI32 4%Z)); FCall 18; FBasic (BTee 1); FBrIf 0; FBasic (BConst (VI32 4%Z)); FBasic (BConst (VI32 8%Z)); FCall 145; FUnreachable; FEnd; FBasic (BGet 1); FBasic (BGet 2); FBasic (BOp (SStore SI32 4%Z)); FBasic (BGet 1); FBasic (BGet 3); FBasic (BOp (SStore SI32 0%Z)); FBasic (BGet 0); FBasic (BConst (VI32 1052992%Z)); FBasic (BOp (SStore SI32 4%Z)); FBasic (BGet 0); FBasic (BGet 1); FBasic (BOp (SStore SI32 0%Z)); FEnd]; b_bad := false |};
    PCode {| b_locals := []; b_badlocals := false; b_ops := [FBasic (BGet 0); FBasic (BConst (VI32 1052992%Z)); FBasic (BOp (SStore SI32 4%Z)); FBasic (BGet 0); FBasic (BGet 1); FBasic (BOp (SStore SI32 0%Z)); FEnd]; b_bad := false |};
    PCode {| b_locals := []; b_badlocals := false; b_ops := [FBasic (BGet 0); FBasic (BGet 1); FBasic (BOp (SLoad LI64 0%Z)); FBasic (BOp (SStore SI64 0%Z)); FEnd]; b_bad := false |};
    PCode {| b_locals := []; b_badlocals := false; b_ops := [FBasic (BGet 1); FBasic (BGet 0); FBasic (BOp (SLoad LI32 0%Z)); FBasic (BGet 0); FBasic (BOp (SLoad LI32 4%Z)); FCall 182; FEnd]; b_bad := false |};
    PCode {| b_locals := [TI32; TI32]; b_badlocals := false; b_ops := [FBasic (BOp (SGlobalGet TI32 0)); FBasic (BConst (VI32 96%Z)); FBasic (BOp (SNum2 (B_int W32 Isub))); FBasic (BTee 5); FBasic (BOp (SGlobalSet TI32 0)); FBasic (BGet 5); FBasic (BGet 1); FBasic (BOp (SStore SI32 32%Z)); FBasic (BGet 5); FBasic (BGet 0); FBasic (BOp (SStore SI32 28%Z)); FBasic (BGet 5); FBasic (BGet 2); FBasic (BOp (SStore SI32 36%Z)); FBlock false [] []; FBlock false [] []; FBlock false [] []; FBlock false [] []; FBasic (BConst (VI32 1%Z)); FCall 92; FBasic (BConst (VI32 255%Z)); FBasic (BOp (SNum2 (B_int W32 Iand))); FBasic (BTee 6); FBasic (BConst (VI32 2%Z)); FBasic (BOp (SNum2 (B_irel W32 Ieq))); FBrIf 0; FBasic (BGet 6); FBasic (BConst (VI32 1%Z)); FBasic (BOp (SNum2 (B_int W32 Iand))); FBasic (BOp (SNum1 (U_eqz W32))); FBrIf 1; FBasic (BGet 5); FBasic (BConst (VI32 16%Z)); FBasic (BOp (SNum2 (B_int W32 Iadd))); FBasic (BGet 0); FBasic (BGet 1); FBasic (BOp (SLoad LI32 24%Z)); FCallInd 6 0; FBasic (BGet 5); FBasic (BGet 5); FBasic (BOp (SLoad LI32 20%Z)); FBasic (BConst (VI32 0%Z)); FBasic (BGet 5); FBasic (BOp (SLoad LI32 16%Z)); FBasic (BTee 1); FBasic (BSelect None); FBasic (BOp (SStore SI32 44%Z)); FBasic (BGet 5); FBasic (BGet 1); FBasic (BConst (VI32 1%Z)); FBasic (BGet 1); FBasic (BSelect None); FBasic (BOp (SStore SI32 40%Z)); FBasic (BGet 5); FBasic (BConst (VI32 3%Z)); FBasic (BOp (SStore SI32 76%Z)); FBasic (BGet 5); FBasic (BConst (VI32 1053180%Z)); FBasic (BOp (SStore SI32 72%Z)); FBasic (BGet 5); FBasic (BConst (VI64 2%Z)); FBasic (BOp (SStore SI64 84%Z)); FBasic (BGet 5); FBasic (BConst (VI32 7%Z)); FBasic (BOp (SCvt (C_ext Ux))); FBasic (BConst (VI64 32%Z)); FBasic (BOp (SNum2 (B_int W64 Ishl))); FBasic (BGet 5); FBasic (BConst (VI32 40%Z)); FBasic (BOp (SNum2 (B_int W32 Iadd))); FBasic (BOp (SCvt (C_ext Ux))); FBasic (BOp (SNum2 (B_int W64 Ior))); FBasic (BOp (SStore SI64 64%Z)); FBasic (BGet 5); FBasic (BConst (VI32 10%Z)); FBasic (BOp (SCvt (C_ext Ux))); FBasic (BConst (VI64 32%Z)); FBasic (BOp (SNum2 (B_int W64 Ishl))); FBasic (BGet 5); FBasic (BConst (VI32 36%Z)); FBasic (BOp (SNum2 (B_int W32 Iadd))); FBasic (BOp (SCvt (C_ext Ux))); FBasic (BOp (SNum2 (B_int W64 Ior))); FBasic (BOp (SStore SI64 56%Z)); FBasic (BGet 5); FBasic (BGet 5); FBasic (BConst (VI32 56%Z)); FBasic (BOp (SNum2 (B_int W32 Iadd))); FBasic (BOp (SStore SI32 80%Z)); FBasic (BGet 5); FBasic (BConst (VI32 48%Z)); FBasic (BOp (SNum2 (B_int W32 Iadd))); FBasic (BGet 5); FBasic (BConst (VI32 48%Z)); FBasic (BOp (SNum2 (B_int W32 Iadd))); FBasic (BGet 5); FBasic (BConst (VI32 72%Z)); FBasic (BOp (SNum2 (B_int W32 Iadd))); FCall 60; FBasic (BGet 5); FBasic (BOp (SLoad LI32_8u 48%Z)); FBasic (BGet 5); FBasic (BOp (SLoad LI32 52%Z)); FCall 50; FBr 3; FEnd; FBasic (BConst (VI32 0%Z)); FBasic (BOp (SLoad LI32 1057256%Z)); FBasic (BTee 6); FBasic (BConst (VI32 (-1)%Z)); FBasic (BOp (SNum2 (B_irel W32 Igt_s))); FBrIf 1; FBasic (BGet 5); FBasic (BConst (VI32 1%Z)); FBasic (BOp (SStore SI32 76%Z)); FBasic (BGet 5); FBasic (BConst (VI32 1053584%Z)); FBasic (BOp (SStore SI32 72%Z)); FBasic (BGet 5); FBasic (BConst (VI64 0%Z)); FBasic (BOp (SStore SI64 84%Z)); FBasic (BGet 5); FBasic (BGet 5); FBasic (BConst (VI32 48%Z)); FBasic (BOp (SNum2 (B_int W32 Iadd))); FBasic (BOp (SStore SI32 80%Z)); FBasic (BGet 5); FBasic (BConst (VI32 56%Z)); FBasic (BOp (SNum2 (B_int W32 Iadd))); FBasic (BGet 5); FBasic (BConst (VI32 48%Z)); FBasic (BOp (SNum2 (B_int W32 Iadd))); FBasic (BGet 5); FBasic (BConst (VI32 72%Z)); FBasic (BOp (SNum2 (B_int W32 Iadd))); FCall 60; FBasic (BGet 5); FBasic (BOp (SLoad LI32_8u 56%Z)); FBasic (BGet 5); FBasic (BOp (SLoad LI32 60%Z)); FCall 50; FBr 2; FEnd; FBasic (BGet 5); FBasic (BConst (VI32 3%Z)); FBasic (BOp (SStore SI32 76%Z)); FBasic (BGet 5); FBasic (BConst (VI32 1053104%Z)); FBasic (BOp (SStore SI32 72%Z)); FBasic (BGet 5); FBasic (BConst (VI64 2%Z)); FBasic (BOp (SStore SI64 84%Z)); FBasic (BGet 5); FBasic (BConst (VI32 11%Z)); FBasic (BOp (SCvt (C_ext Ux))); FBasic (BConst (VI64 32%Z)); FBasic (BOp (SNum2 (B_int W64 Ishl))); FBasic (BGet 5); FBasic (BConst (VI32 28%Z)); FBasic (BOp (SNum2 (B_int W32 Iadd))); FBasic (BOp (SCvt (C_ext Ux))); FBasic (BOp (SNum2 (B_int W64 Ior))); FBasic (BOp (SStore SI64 64%Z)); FBasic (BGet 5); FBasic (BConst (VI32 10%Z)); FBasic (BOp (SCvt (C_ext Ux))); FBasic (BConst (VI64 32%Z)); FBasic (BOp (SNum2 (B_int W64 Ishl))); FBasic (BGet 5); FBasic (BConst (VI32 36%Z)); FBasic (BOp (SNum2 (B_int W32 Iadd))); FBasic (BOp (SCvt (C_ext Ux))); FBasic (BOp (SNum2 (B_int W64 Ior))); FBasic (BOp (SStore SI64 56%Z)); FBasic (BGet 5); FBasic (BGet 5); FBasic (BConst (VI32 56%Z)); FBasic (BOp (SNum2 (B_int W32 Iadd))); FBasic (BOp (SStore SI32 80%Z)); FBasic (BGet 5); FBasic (BConst (VI32 48%Z)); FBasic (BOp (SNum2 (B_int W32 Iadd))); FBasic (BGet 5); FBasic (BConst (VI32 48%Z)); FBasic (BOp (SNum2 (B_int W32 Iadd))); FBasic (BGet 5); FBasic (BConst (VI32 72%Z)); FBasic (BOp (SNum2 (B_int W32 Iadd))); FCall 60; FBasic (BGet 5); FBasic (BOp (SLoad LI32_8u 48%Z)); FBasic (BGet 5); FBasic (BOp (SLoad LI32 52%Z)); FCall 50; FBr 1; FEnd; FBasic (BConst (VI32 0%Z)); FBasic (BGet 6); FBasic (BConst (VI32 1%Z)); FBasic (BOp (SNum2 (B_int W32 Iadd))); FBasic (BOp (SStore SI32 1057256%Z)); FBlock false [] []; FBlock false [] []; FBasic (BConst (VI32 0%Z)); FBasic (BOp (SLoad LI32 1057260%Z)); FBasic (BOp (SNum1 (U_eqz W32))); FBrIf 0; FBasic (BGet 5); FBasic (BConst (VI32 8%Z)); FBasic (BOp (SNum2 (B_int W32 Iadd))); FBasic (BGet 0); FBasic (BGet 1); FBasic (BOp (SLoad LI32 20%Z)); FCallInd 6 0; FBasic (BGet 5); FBasic (BGet 4); FBasic (BOp (SStore SI32_8 85%Z)); FBasic (BGet 5); FBasic (BGet 3); FBasic (BOp (SStore SI32_8 84%Z)); FBasic (BGet 5); FBasic (BGet 2); FBasic (BOp (SStore SI32 80%Z)); FBasic (BGet 5); FBasic (BGet 5); FBasic (BOp (SLoad LI64 8%Z)); FBasic (BOp (SStore SI64 72%Z)); FBasic (BConst (VI32 0%Z)); FBasic (BOp (SLoad LI32 1057260%Z)); FBasic (BGet 5); FBasic (BConst (VI32 72%Z)); FBasic (BOp (SNum2 (B_int W32 Iadd))); FBasic (BConst (VI32 0%Z)); FBasic (BOp (SLoad LI32 1057264%Z)); FBasic (BOp (SLoad LI32 20%Z)); FCallInd 6 0; FBr 1; FEnd; FBasic (BGet 5); FBasic (BGet 0); FBasic (BGet 1); FBasic (BOp (SLoad LI32 20%Z)); FCallInd 6 0; FBasic (BGet 5); FBasic (BGet 4); FBasic (BOp (SStore SI32_8 85%Z)); FBasic (BGet 5); FBasic (BGet 3); FBasic (BOp (SStore SI32_8 84%Z)); FBasic (BGet 5); FBasic (BGet 2); FBasic (BOp (SStore SI32 80%Z)); FBasic (BGet 5); FBasic (BGet 5); FBasic (BOp (SLoad LI64 0%Z)); FBasic (BOp (SStore SI64 72%Z)); FBasic (BGet 5); FBasic (BConst (VI32 72%Z)); FBasic (BOp (SNum2 (B_int W32 Iadd))); FCall 43; FEnd; FBasic (BConst (VI32 0%Z)); FBasic (BConst (VI32 0%Z)); FBasic (BOp (SLoad LI32 1057256%Z)); FBasic (BConst (VI32 (-1)%Z)); FBasic (BOp (SNum2 (B_int W32 Iadd))); FBasic (BOp (SStore SI32 1057256%Z)); FBasic (BConst (VI32 0%Z)); FBasic (BConst (VI32 0%Z)); FBasic (BOp (SStore SI32_8 1057300%Z)); FBlock false [] []; FBasic (BGet 3); FBrIf 0; FBasic (BGet 5); FBasic (BConst (VI32 0%Z)); FBasic (BOp (SStore SI32 88%Z)); FBasic (BGet 5); FBasic (BConst (VI32 1%Z)); FBasic (BOp (SStore SI32 76%Z)); FBasic (BGet 5); FBasic (BConst (VI32 1053252%Z)); FBasic (BOp (SStore SI32 72%Z)); FBasic (BGet 5); FBasic (BConst (VI64 4%Z)); FBasic (BOp (SStore SI64 80%Z)); FBasic (BGet 5); FBasic (BConst (VI32 56%Z)); FBasic (BOp (SNum2 (B_int W32 Iadd))); FBasic (BGet 5); FBasic (BConst (VI32 48%Z)); FBasic (BOp (SNum2 (B_int W32 Iadd))); FBasic (BGet 5); FBasic (BConst (VI32 72%Z)); FBasic (BOp (SNum2 (B_int W32 Iadd))); FCall 60; FBasic (BGet 5); FBasic (BOp (SLoad LI32_8u 56%Z)); FBasic (BGet 5); FBasic (BOp (SLoad LI32 60%Z)); FCall 50; FBr 1; FEnd; FBasic (BGet 0); FBasic (BGet 1); FCall 102; FUnreachable; FEnd; FCall 61; FUnreachable; FEnd]; b_bad := false |};
    PCode {| b_locals := [TI32]; b_badlocals := false; b_ops := [FBasic (BOp (SGlobalGet TI32 0)); FBasic (BConst (VI32 64%Z)); FBasic (BOp (SNum2 (B_int W32 Isub))); FBasic (BTee 2); FBasic (BOp (SGlobalSet TI32 0)); FBasic (BGet 2); FBasic (BGet 0); FBasic (BGet 1); FCall 109; FBasic (BOp (SStore SI32 12%Z)); FBasic (BGet 2); FBasic (BConst (VI32 2%Z)); FBasic (BOp (SStore SI32 28%Z)); FBasic (BGet 2); FBasic (BConst (VI32 1053324%Z)); FBasic (BOp (SStore SI32 24%Z)); FBasic (BGet 2); FBasic (BConst (VI64 1%Z)); FBasic (BOp (SStore SI64 36%Z)); FBasic (BGet 2); FBasic (BConst (VI32 8%Z)); FBasic (BOp (SCvt (C_ext Ux))); FBasic (BConst (VI64 32%Z)); FBasic (BOp (SNum2 (B_int W64 Ishl))); FBasic (BGet 2); FBasic (BConst (VI32 12%Z)); FBasic (BOp (SNum2 (B_int W32 Iadd))); FBasic (BOp (SCvt (C_ext Ux))); FBasic (BOp (SNum2 (B_int W64 Ior))); FBasic (BOp (SStore SI64 48%Z)); FBasic (BGet 2); FBasic (BGet 2); FBasic (BConst (VI32 48%Z)); FBasic (BOp (SNum2 (B_int W32 Iadd))); FBasic (BOp (SStore SI32 32%Z)); FBasic (BGet 2); FBasic (BConst (VI32 16%Z)); FBasic (BOp (SNum2 (B_int W32 Iadd))); FBasic (BGet 2); FBasic (BConst (VI32 63%Z)); FBasic (BOp (SNum2 (B_int W32 Iadd))); FBasic (BGet 2); FBasic (BConst (VI32 24%Z)); FBasic (BOp (SNum2 (B_int W32 Iadd))); FCall 60; FBasic (BGet 2); FBasic (BOp (SLoad LI32_8u 16%Z)); FBasic (BGet 2); FBasic (BOp (SLoad LI32 20%Z)); FCall 50; FCall 61; FUnreachable; FEnd]; b_bad := false |};
    PCode {| b_locals := [TI32]; b_badlocals := false; b_ops := [FBasic (BOp (SGlobalGet TI32 0)); FBasic (BConst (VI32 16%Z)); FBasic (BOp (SNum2 (B_int W32 Isub))); FBasic (BTee 4); FBasic (BOp (SGlobalSet TI32 0)); FBasic (BGet 4); FBasic (BGet 3); FBasic (BOp (SStore SI32 4%Z)); FBasic (BGet 4); FBasic (BGet 2); FBasic (BOp (SStore SI32 0%Z)); FBasic (BGet 4); FBasic (BConst (VI32 8%Z)); FBasic (BOp (SNum2 (B_int W32 Iadd))); FBasic (BConst (VI32 2%Z)); FBasic (BGet 4); FBasic (BConst (VI32 1%Z)); FCall 110; FBlock false [] []; FBlock false [] []; FBasic (BGet 4); FBasic (BOp (SLoad LI32_16u 8%Z)); FBasic (BConst (VI32 1%Z)); FBasic (BOp (SNum2 (B_irel W32 Ine))); FBrIf 0; FBasic (BGet 0); FBasic (BGet 4); FBasic (BOp (SLoad LI64_16u 10%Z)); FBasic (BConst (VI64 32%Z)); FBasic (BOp (SNum2 (B_int W64 Ishl))); FBasic (BOp (SStore SI64 0%Z)); FBr 1; FEnd; FBasic (BGet 0); FBasic (BGet 4); FBasic (BOp (SLoad LI32 12%Z)); FBasic (BOp (SStore SI32 4%Z)); FBasic (BGet 0); FBasic (BConst (VI32 4%Z)); FBasic (BOp (SStore SI32_8 0%Z)); FEnd; FBasic (BGet 4); FBasic (BConst (VI32 16%Z)); FBasic (BOp (SNum2 (B_int W32 Iadd))); FBasic (BOp (SGlobalSet TI32 0)); FEnd]; b_bad := false |};
    PCode {| b_locals := [TI32]; b_badlocals := false; b_ops := [FBasic (BOp (SGlobalGet TI32 0)); FBasic (BConst (VI32 16%Z)); FBasic (BOp (SNum2 (B_int W32 Isub))); FBasic (BTee 4); FBasic (BOp (SGlobalSet TI32 0)); FBasic (BGet 4); FBasic (BConst (VI32 8%Z)); FBasic (BOp (SNum2 (B_int W32 Iadd))); FBasic (BConst (VI32 2%Z)); FBasic (BGet 2); FBasic (BGet 3); FCall 110; FBlock false [] []; FBlock false [] []; FBasic (BGet 4); FBasic (BOp (SLoad LI32_16u 8%Z)); FBasic (BConst (VI32 1%Z)); FBasic (BOp (SNum2 (B_irel W32 Ine))); FBrIf 0; FBasic (BGet 0); FBasic (BGet 4); FBasic (BOp (SLoad LI64_16u 10%Z)); FBasic (BConst (VI64 32%Z)); FBasic (BOp (SNum2 (B_int W64 Ishl))); FBasic (BOp (SStore SI64 0%Z)); FBr 1; FEnd; FBasic (BGet 0); FBasic (BGet 4); FBasic (BOp (SLoad LI32 12%Z)); FBasic (BOp (SStore SI32 4%Z)); FBasic (BGet 0); FBasic (BConst (VI32 4%Z)); FBasic (BOp (SStore SI32_8 0%Z)); FEnd; FBasic (BGet 4); FBasic (BConst (VI32 16%Z)); FBasic (BOp (SNum2 (B_int W32 Iadd))); FBasic (BOp (SGlobalSet TI32 0)); FEnd]; b_bad := false |};
    PCode {| b_locals := []; b_badlocals := false; b_ops := [FBasic (BConst (VI32 1%Z)); FEnd]; b_bad := false |};
    PCode {| b_locals := []; b_badlocals := false; b_ops := [FBasic (BGet 0); FBasic (BConst (VI32 4%Z)); FBasic (BOp (SStore SI32_8 0%Z)); FEnd]; b_bad := false |};
    PCode {| b_locals := [TI32]; b_badlocals := false; b_ops := [FBasic (BGet 0); FBasic (BGet 1); FBasic (BConst (VI32 0%Z)); FBasic (BOp (SLoad LI32 1057252%Z)); FBasic (BTee 2); FBasic (BConst (VI32 12%Z)); FBasic (BGet 2); FBasic (BSelect None); FCallInd 6 0; FCall 78; FUnreachable; FEnd]; b_bad := false |};
    PCode {| b_locals := []; b_badlocals := false; b_ops := [FBasic (BGet 1); FBasic (BGet 0); FCall 107; FUnreachable; FEnd]; b_bad := false |};
    PCode {| b_locals := []; b_badlocals := false; b_ops := [FUnreachable; FEnd]; b_bad := false |};
    PCode {| b_locals := [TI32]; b_badlocals := false; b_ops := [FBasic (BOp (SGlobalGet TI32 0)); FBasic (BConst (VI32 16%Z)); FBasic (BOp (SNum2 (B_int W32 Isub))); FBasic (BTee 4); FBasic (BOp (SGlobalSet TI32 0)); FBlock false [] []; FBlock false [] []; FBasic (BGet 1); FBasic (BGet 2); FBasic (BGet 3); FBasic (BGet 4); FBasic (BConst (VI32 12%Z)); FBasic (BOp (SNum2 (B_int W32 Iadd))); FCall 1; FBasic (BTee 3); FBrIf 0; FBasic (BGet 0); FBasic (BGet 4); FBasic (BOp (SLoad LI32 12%Z)); FBasic (BOp (SStore SI32 4%Z)); FBasic (BConst (VI32 0%Z)); FBasic (BSet 3); FBr 1; FEnd; FBasic (BGet 0); FBasic (BGet 3); FBasic (BOp (SStore SI32_16 2%Z)); FBasic (BConst (VI32 1%Z)); FBasic (BSet 3); FEnd; FBasic (BGet 0); FBasic (BGet 3); FBasic (BOp (SStore SI32_16 0%Z)); FBasic (BGet 4); FBasic (BConst (VI32 16%Z)); FBasic (BOp (SNum2 (B_int W32 Iadd))); FBasic (BOp (SGlobalSet TI32 0)); FEnd]; b_bad := false |};
    PCode {| b_locals := []; b_badlocals := false; b_ops := [FBasic (BGet 0); FBasic (BOp (SLoad LI32 0%Z)); FBasic (BGet 0); FBasic (BOp (SLoad LI32 4%Z)); FBasic (BGet 1); FCall 185; FEnd]; b_bad := false |};
    PCode {| b_locals := []; b_badlocals := false; b_ops := [FBasic (BGet 0); FCall 113; FEnd]; b_bad := false |};
    PCode {| b_locals := [TI32; TI32; TI32; TI32; TI32; TI32; TI32; TI32; TI32; TI32; TI32]; b_badlocals := false; b_ops := [FBasic (BOp (SGlobalGet TI32 0)); FBasic (BConst (VI32 16%Z)); FBasic (BOp (SNum2 (B_int W32 Isub))); FBasic (BTee 1); FBasic (BOp (SGlobalSet TI32 0)); FBlock false [] []; FBlock false [] []; FBlock false [] []; FBlock false [] []; FBlock false [] []; FBlock false [] []; FBlock false [] []; FBlock false [] []; FBlock false [] []; FBlock false [] []; FBlock false [] []; FBlock false [] []; FBlock false [] []; FBasic (BConst (VI32 0%Z)); FBasic (BOp (SLoad LI32 1057336%Z)); FBasic (BTee 2); FBrIf 0; FBlock false [] []; FBasic (BConst (VI32 0%Z)); FBasic (BOp (SLoad LI32 1057784%Z)); FBasic (BTee 3); FBrIf 0; FBasic (BConst (VI32 0%Z)); FBasic (BConst (VI64 (-1)%Z)); FBasic (BOp (SStore SI64 1057796%Z)); FBasic (BConst (VI32 0%Z)); FBasic (BConst (VI64 281474976776192%Z)); FBasic (BOp (SStore SI64 1057788%Z)); FBasic (BConst (VI32 0%Z)); FBasic (BGet 1); FBasic (BConst (VI32 8%Z)); FBasic (BOp (SNum2 (B_int W32 Iadd))); FBasic (BConst (VI32 (-16)%Z)); FBasic (BOp (SNum2 (B_int W32 Iand))); FBasic (BConst (VI32 1431655768%Z)); FBasic (BOp (SNum2 (B_int W32 Ixor))); FBasic (BTee 3); FBasic (BOp (SStore SI32 1057784%Z)); FBasic (BConst (VI32 0%Z)); FBasic (BConst (VI32 0%Z)); FBasic (BOp (SStore SI32 1057804%Z)); FBasic (BConst (VI32 0%Z)); FBasic (BConst (VI32 0%Z)); FBasic (BOp (SStore SI32 1057756%Z)); FEnd; FBasic (BConst (VI32 1114112%Z)); FBasic (BConst (VI32 1057824%Z)); FBasic (BOp (SNum2 (B_irel W32 Ilt_u))); FBrIf 1; FBasic (BConst (VI32 0%Z)); FBasic (BSet 2); FBasic (BConst (VI32 1114112%Z)); FBasic (BConst (VI32 1057824%Z)); FBasic (BOp (SNum2 (B_int W32 Isub))); FBasic (BConst (VI32 89%Z)); FBasic (BOp (SNum2 (B_irel W32 Ilt_u))); FBrIf 0; FBasic (BConst (VI32 0%Z)); FBasic (BSet 4); FBasic (BConst (VI32 0%Z)); FBasic (BConst (VI32 1057824%Z)); FBasic (BOp (SStore SI32 1057760%Z)); FBasic (BConst (VI32 0%Z)); FBasic (BConst (VI32 1057824%Z)); FBasic (BOp (SStore SI32 1057328%Z)); FBasic (BConst (VI32 0%Z)); FBasic (BGet 3); FBasic (BOp (SStore SI32 1057348%Z)); FBasic (BConst (VI32 0%Z)); FBasic (BConst (VI32 (-1)%Z)); FBasic (BOp (SStore SI32 1057344%Z)); FBasic (BConst (VI32 0%Z)); FBasic (BConst (VI32 1114112%Z)); FBasic (BConst (VI32 1057824%Z)); FBasic (BOp (SNum2 (B_int W32 Isub))); FBasic (BTee 3); FBasic (BOp (SStore SI32 1057764%Z)); FBasic (BConst (VI32 0%Z)); FBasic (BGet 3); FBasic (BOp (SStore SI32 1057748%Z)); FBasic (BConst (VI32 0%Z)); FBasic (BGet 3); FBasic (BOp (SStore SI32 1057744%Z)); FBlock true [] []; FBasic (BGet 4); FBasic (BConst (VI32 1057372%Z)); FBasic (BOp (SNum2 (B_int W32 Iadd))); FBasic (BGet 4); FBasic (BConst (VI32 1057360%Z)); FBasic (BOp (SNum2 (B_int W32 Iadd))); FBasic (BTee 3); FBasic (BOp (SStore SI32 0%Z)); FBasic (BGet 3); FBasic (BGet 4); FBasic (BConst (VI32 1057352%Z)); FBasic (BOp (SNum2 (B_int W32 Iadd))); FBasic (BTee 5); FBasic (BOp (SStore SI32 0%Z)); FBasic (BGet 4); FBasic (BConst (VI32 1057364%Z)); FBasic (BOp (SNum2 (B_int W32 Iadd))); FBasic (BGet 5); FBasic (BOp (SStore SI32 0%Z)); FBasic (BGet 4); FBasic (BConst (VI32 1057380%Z)); FBasic (BOp (SNum2 (B_int W32 Iadd))); FBasic (BGet 4); FBasic (BConst (VI32 1057368%Z)); FBasic (BOp (SNum2 (B_int W32 Iadd))); FBasic (BTee 5); FBasic (BOp (SStore SI32 0%Z)); FBasic (BGet 5); FBasic (BGet 3); FBasic (BOp (SStore SI32 0%Z)); FBasic (BGet 4); FBasic (BConst (VI32 1057388%Z)); FBasic (BOp (SNum2 (B_int W32 Iadd))); FBasic (BGet 4); FBasic (BConst (VI32 1057376%Z)); FBasic (BOp (SNum2 (B_int W32 Iadd))); FBasic (BTee 3); FBasic (BOp (SStore SI32 0%Z)); FBasic (BGet 3); FBasic (BGet 5); FBasic (BOp (SStore SI32 0%Z)); FBasic (BGet 4); FBasic (BConst (VI32 1057384%Z)); FBasic (BOp (SNum2 (B_int W32 Iadd))); FBasic (BGet 3); FBasic (BOp (SStore SI32 0%Z)); FBasic (BGet 4); FBasic (BConst (VI32 32%Z)); FBasic (BOp (SNum2 (B_int W32 Iadd))); FBasic (BTee 4); FBasic (BConst (VI32 256%Z)); FBasic (BOp (SNum2 (B_irel W32 Ine))); FBrIf 0; FEnd; FBasic (BConst (VI32 1114112%Z)); FBasic (BConst (VI32 (-52)%Z)); FBasic (BOp (SNum2 (B_int W32 Iadd))); FBasic (BConst (VI32 56%Z)); FBasic (BOp (SStore SI32 0%Z)); FBasic (BConst (VI32 0%Z)); FBasic (BConst (VI32 0%Z)); FBasic (BOp (SLoad LI32 1057800%Z)); FBasic (BOp (SStore SI32 1057340%Z)); FBasic (BConst (VI32 0%Z)); FBasic (BConst (VI32 1057824%Z)); FBasic (BConst (VI32 (-8)%Z)); FBasic (BConst (VI32 1057824%Z)); FBasic (BOp (SNum2 (B_int W32 Isub))); FBasic (BConst (VI32 15%Z)); FBasic (BOp (SNum2 (B_int W32 Iand))); FBasic (BTee 4); FBasic (BOp (SNum2 (B_int W32 Iadd))); FBasic (BTee 2); FBasic (BOp (SStore SI32 1057336%Z)); FBasic (BConst (VI32 0%Z)); FBasic (BConst (VI32 1114112%Z)); FBasic (BConst (VI32 1057824%Z)); FBasic (BOp (SNum2 (B_int W32 Isub))); FBasic (BGet 4); FBasic (BOp (SNum2 (B_int W32 Isub))); FBasic (BConst (VI32 (-56)%Z)); FBasic (BOp (SNum2 (B_int W32 Iadd))); FBasic (BTee 4); FBasic (BOp (SStore SI32 1057324%Z)); FBasic (BGet 2); FBasic (BGet 4); FBasic (BConst (VI32 1%Z)); FBasic (BOp (SNum2 (B_int W32 Ior))); FBasic (BOp (SStore SI32 4%Z)); FEnd; FBlock false [] []; FBlock false [] []; FBasic (BGet 0); FBasic (BConst (VI32 236%Z)); FBasic (BOp (SNum2 (B_irel W32 Igt_u))); FBrIf 0; FBlock false [] []; FBasic (BConst (VI32 0%Z)); FBasic (BOp (SLoad LI32 1057312%Z)); FBasic (BTee 6); FBasic (BConst (VI32 16%Z)); FBasic (BGet 0); FBasic (BConst (VI32 19%Z)); FBasic (BOp (SNum2 (B_int W32 Iadd))); FBasic (BConst (VI32 496%Z)); FBasic (BOp (SNum2 (B_int W32 Iand))); FBasic (BGet 0); FBasic (BConst (VI32 11%Z)); FBasic (BOp (SNum2 (B_irel W32 Ilt_u))); FBasic (BSelect None); FBasic (BTee 5); FBasic (BConst (VI32 3%Z)); FBasic (BOp (SNum2 (B_int W32 Ishr_u))); FBasic (BTee 3); FBasic (BOp (SNum2 (B_int W32 Ishr_u))); FBasic (BTee 4); FBasic (BConst (VI32 3%Z)); FBasic (BOp (SNum2 (B_int W32 Iand))); FBasic (BOp (SNum1 (U_eqz W32))); FBrIf 0; FBlock false [] []; FBlock false [] []; FBasic (BGet 4); FBasic (BConst (VI32 1%Z)); FBasic (BOp (SNum2 (B_int W32 Iand))); FBasic (BGet 3); FBasic (BOp (SNum2 (B_int W32 Ior))); FBasic (BConst (VI32 1%Z)); FBasic (BOp (SNum2 (B_int W32 Ixor))); FBasic (BTee 5); FBasic (BConst (VI32 3%Z)); FBasic (BOp (SNum2 (B_int W32 Ishl))); FBasic (BTee 3); FBasic (BConst (VI32 1057352%Z)); FBasic (BOp (SNum2 (B_int W32 Iadd))); FBasic (BTee 4); FBasic (BGet 3); FBasic (BConst (VI32 1057360%Z)); FBasic (BOp (SNum2 (B_int W32 Iadd))); FBasic (BOp (SLoad LI32 0%Z)); FBasic (BTee 3); FBasic (BOp (SLoad LI32 8%Z)); FBasic (BTee 0); FBasic (BOp (SNum2 (B_irel W32 Ine))); FBrIf 0; FBasic (BConst (VI32 0%Z)); FBasic (BGet 6); FBasic (BConst (VI32 (-2)%Z)); FBasic (BGet 5); FBasic (BOp (SNum2 (B_int W32 Irotl))); FBasic (BOp (SNum2 (B_int W32 Iand))); FBasic (BOp (SStore SI32 1057312%Z)); FBr 1; FEnd; FBasic (BGet 4); FBasic (BGet 0); FBasic (BOp (SStore SI32 8%Z)); FBasic (BGet 0); FBasic (BGet 4); FBasic (BOp (SStore SI32 12%Z)); FEnd; FBasic (BGet 3); FBasic (BConst (VI32 8%Z)); FBasic (BOp (SNum2 (B_int W32 Iadd))); FBasic (BSet 4); FBasic (BGet 3); FBasic (BGet 5); FBasic (BConst (VI32 3%Z)); FBasic (BOp (SNum2 (B_int W32 Ishl))); FBasic (BTee 5); FBasic (BConst (VI32 3%Z)); FBasic (BOp (SNum2 (B_int W32 Ior))); FBasic (BOp (SStore SI32 4%Z)); FBasic (BGet 3); FBasic (BGet 5); FBasic (BOp (SNum2 (B_int W32 Iadd))); FBasic (BTee 3); FBasic (BGet 3); FBasic (BOp (SLoad LI32 4%Z)); FBasic (BConst (VI32 1%Z)); FBasic (BOp (SNum2 (B_int W32 Ior))); FBasic (BOp (SStore SI32 4%Z)); FBr 14; FEnd; FBasic (BGet 5); FBasic (BConst (VI32 0%Z)); FBasic (BOp (SLoad LI32 1057320%Z)); FBasic (BTee 7); FBasic (BOp (SNum2 (B_irel W32 Ile_u))); FBrIf 1; FBlock false [] []; FBasic (BGet 4); FBasic (BOp (SNum1 (U_eqz W32))); FBrIf 0; FBlock false [] []; FBlock false [] []; FBasic (BGet 4); FBasic (BGet 3); FBasic (BOp (SNum2 (B_int W32 Ishl))); FBasic (BConst (VI32 2%Z)); FBasic (BGet 3); FBasic (BOp (SNum2 (B_int W32 Ishl))); FBasic (BTee 4); FBasic (BConst (VI32 0%Z)); FBasic (BGet 4); FBasic (BOp (SNum2 (B_int W32 Isub))); FBasic (BOp (SNum2 (B_int W32 Ior))); FBasic (BOp (SNum2 (B_int W32 Iand))); FBasic (BOp (SNum1 (U_int W32 Ictz))); FBasic (BTee 3); FBasic (BConst (VI32 3%Z)); FBasic (BOp (SNum2 (B_int W32 Ishl))); FBasic (BTee 4); FBasic (BConst (VI32 1057352%Z)); FBasic (BOp (SNum2 (B_int W32 Iadd))); FBasic (BTee 0); FBasic (BGet 4); FBasic (BConst (VI32 1057360%Z)); FBasic (BOp (SNum2 (B_int W32 Iadd))); FBasic (BOp (SLoad LI32 0%Z)); FBasic (BTee 4); FBasic (BOp (SLoad LI32 8%Z)); FBasic (BTee 8); FBasic (BOp (SNum2 (B_irel W32 Ine))); FBrIf 0; FBasic (BConst (VI32 0%Z)); FBasic (BGet 6); FBasic (BConst (VI32 (-2)%Z)); FBasic (BGet 3); FBasic (BOp (SNum2 (B_int W32 Irotl))); FBasic (BOp (SNum2 (B_int W32 Iand))); FBasic (BTee 6); FBasic (BOp (SStore SI32 1057312%Z)); FBr 1; FEnd; FBasic (BGet 0); FBasic (BGet 8); FBasic (BOp (SStore SI32 8%Z)); FBasic (BGet 8); FBasic (BGet 0); FBasic (BOp (SStore SI32 12%Z)); FEnd; FBasic (BGet 4); FBasic (BGet 5); FBasic (BConst (VI32 3%Z)); FBasic (BOp (SNum2 (B_int W32 Ior))); FBasic (BOp (SStore SI32 4%Z)); FBasic (BGet 4); FBasic (BGet 3); FBasic (BConst (VI32 3%Z)); FBasic (BOp (SNum2 (B_int W32 Ishl))); FBasic (BTee 3); FBasic (BOp (SNum2 (B_int W32 Iadd))); FBasic (BGet 3); FBasic (BGet 5); FBasic (BOp (SNum2 (B_int W32 Isub))); FBasic (BTee 0); FBasic (BOp (SStore SI32 0%Z)); FBasic (BGet 4); FBasic (BGet 5); FBasic (BOp (SNum2 (B_int W32 Iadd))); FBasic (BTee 8); FBasic (BGet 0); FBasic (BConst (VI32 1%Z)); FBasic (BOp (SNum2 (B_int W32 Ior))); FBasic (BOp (SStore SI32 4%Z)); FBlock false [] []; FBasic (BGet 7); FBasic (BOp (SNum1 (U_eqz W32))); FBrIf 0; FBasic (BGet 7); FBasic (BConst (VI32 (-8)%Z)); FBasic (BOp (SNum2 (B_int W32 Iand))); FBasic (BConst (VI32 1057352%Z)); FBasic (BOp (SNum2 (B_int W32 Iadd))); FBasic (BSet 5); FBasic (BConst (VI32 0%Z)); FBasic (BOp (SLoad LI32 1057332%Z)); FBasic (BSet 3); FBlock false [] []; FBlock false [] []; FBasic (BGet 6); FBasic (BConst (VI32 1%Z)); FBasic (BGet 7); FBasic (BConst (VI32 3%Z)); FBasic (BOp (SNum2 (B_int W32 Ishr_u))); FBasic (BOp (SNum2 (B_int W32 Ishl))); FBasic (BTee 9); FBasic (BOp (SNum2 (B_int W32 Iand))); FBrIf 0; FBasic (BConst (VI32 0%Z)); FBasic (BGet 6); FBasic (BGet 9); FBasic (BOp (SNum2 (B_int W32 Ior))); FBasic (BOp (SStore SI32 1057312%Z)); FBasic (BGet 5); FBasic (BSet 9); FBr 1; FEnd; FBasic (BGet 5); FBasic (BOp (SLoad LI32 8%Z)); FBasic (BSet 9); FEnd; FBasic (BGet 9); FBasic (BGet 3); FBasic (BOp (SStore SI32 12%Z)); FBasic (BGet 5); FBasic (BGet 3); FBasic (BOp (SStore SI32 8%Z)); FBasic (BGet 3); FBasic (BGet 5); FBasic (BOp (SStore SI32 12%Z)); FBasic (BGet 3); FBasic (BGet 9); FBasic (BOp (SStore SI32 8%Z)); FEnd; FBasic (BGet 4); FBasic (BConst (VI32 8%Z)); FBasic (BOp (SNum2 (B_int W32 Iadd))); FBasic (BSet 4); FBasic (BConst (VI32 0%Z)); FBasic (BGet 8); FBasic (BOp (SStore SI32 1057332%Z)); FBasic (BConst (VI32 0%Z)); FBasic (BGet 0); FBasic (BOp (SStore SI32 1057320%Z)); FBr 14; FEnd; FBasic (BConst (VI32 0%Z)); FBasic (BOp (SLoad LI32 1057316%Z)); FBasic (BTee 10); FBasic (BOp (SNum1 (U_eqz W32))); FBrIf 1; FBasic (BGet 10); FBasic (BOp (SNum1 (U_int W32 Ictz))); FBasic (BConst (VI32 2%Z)); FBasic (BOp (SNum2 (B_int W32 Ishl))); FBasic (BConst (VI32 1057616%Z)); FBasic (BOp (SNum2 (B_int W32 Iadd))); FBasic (BOp (SLoad LI32 0%Z)); FBasic (BTee 8); FBasic (BOp (SLoad LI32 4%Z)); FBasic (BConst (VI32 (-8)%Z)); FBasic (BOp (SNum2 (B_int W32 Iand))); FBasic (BGet 5); FBasic (BOp (SNum2 (B_int W32 Isub))); FBasic (BSet 3); FBasic (BGet 8); FBasic (BSet 0); FBlock false [] []; FBlock true [] []; FBlock false [] []; FBasic (BGet 0); FBasic (BOp (SLoad LI32 16%Z)); FBasic (BTee 4); FBrIf 0; FBasic (BGet 0); FBasic (BOp (SLoad LI32 20%Z)); FBasic (BTee 4); FBasic (BOp (SNum1 (U_eqz W32))); FBrIf 2; FEnd; FBasic (BGet 4); FBasic (BOp (SLoad LI32 4%Z)); FBasic (BConst (VI32 (-8)%Z)); FBasic (BOp (SNum2 (B_int W32 Iand))); FBasic (BGet 5); FBasic (BOp (SNum2 (B_int W32 Isub))); FBasic (BTee 0); FBasic (BGet 3); FBasic (BGet 0); FBasic (BGet 3); FBasic (BOp (SNum2 (B_irel W32 Ilt_u))); FBasic (BTee 0); FBasic (BSelect None); FBasic (BSet 3); FBasic (BGet 4); FBasic (BGet 8); FBasic (BGet 0); FBasic (BSelect None); FBasic (BSet 8); FBasic (BGet 4); FBasic (BSet 0); FBr 0; FEnd; FEnd; FBasic (BGet 8); FBasic (BOp (SLoad LI32 24%Z)); FBasic (BSet 2); FBlock false [] []; FBasic (BGet 8); FBasic (BOp (SLoad LI32 12%Z)); FBasic (BTee 4); FBasic (BGet 8); FBasic (BOp (SNum2 (B_irel W32 Ieq))); FBrIf 0; FBasic (BGet 8); FBasic (BOp (SLoad LI32 8%Z)); FBasic (BTee 0); FBasic (BGet 4); FBasic (BOp (SStore SI32 12%Z)); FBasic (BGet 4); FBasic (BGet 0); FBasic (BOp (SStore SI32 8%Z)); FBr 13; FEnd; FBlock false [] []; FBlock false [] []; FBasic (BGet 8); FBasic (BOp (SLoad LI32 20%Z)); FBasic (BTee 0); FBasic (BOp (SNum1 (U_eqz W32))); FBrIf 0; FBasic (BGet 8); FBasic (BConst (VI32 20%Z)); FBasic (BOp (SNum2 (B_int W32 Iadd))); FBasic (BSet 9); FBr 1; FEnd; FBasic (BGet 8); FBasic (BOp (SLoad LI32 16%Z)); FBasic (BTee 0); FBasic (BOp (SNum1 (U_eqz W32))); FBrIf 4; FBasic (BGet 8); FBasic (BConst (VI32 16%Z)); FBasic (BOp (SNum2 (B_int W32 Iadd))); FBasic (BSet 9); FEnd; FBlock true [] []; FBasic (BGet 9); FBasic (BSet 11); FBasic (BGet 0); FBasic (BTee 4); FBasic (BConst (VI32 20%Z)); FBasic (BOp (SNum2 (B_int W32 Iadd))); FBasic (BSet 9); FBasic (BGet 4); FBasic (BOp (SLoad LI32 20%Z)); FBasic (BTee 0); FBrIf 0; FBasic (BGet 4); FBasic (BConst (VI32 16%Z)); FBasic (BOp (SNum2 (B_int W32 Iadd))); FBasic (BSet 9); FBasic (BGet 4); FBasic (BOp (SLoad LI32 16%Z)); FBasic (BTee 0); FBrIf 0; FEnd; FBasic (BGet 11); FBasic (BConst (VI32 0%Z)); FBasic (BOp (SStore SI32 0%Z)); FBr 12; FEnd; FBasic (BConst (VI32 (-1)%Z)); FBasic (BSet 5); FBasic (BGet 0); FBasic (BConst (VI32 (-65)%Z)); FBasic (BOp (SNum2 (B_irel W32 Igt_u))); FBrIf 0; FBasic (BGet 0); FBasic (BConst (VI32 19%Z)); FBasic (BOp (SNum2 (B_int W32 Iadd))); FBasic (BTee 4); FBasic (BConst (VI32 (-16)%Z)); FBasic (BOp (SNum2 (B_int W32 Iand))); FBasic (BSet 5); FBasic (BConst (VI32 0%Z)); FBasic (BOp (SLoad LI32 1057316%Z)); FBasic (BTee 10); FBasic (BOp (SNum1 (U_eqz W32))); FBrIf 0; FBasic (BConst (VI32 31%Z)); FBasic (BSet 7); FBlock false [] []; FBasic (BGet 0); FBasic (BConst (VI32 16777196%Z)); FBasic (BOp (SNum2 (B_irel W32 Igt_u))); FBrIf 0; FBasic (BGet 5); FBasic (BConst (VI32 38%Z)); FBasic (BGet 4); FBasic (BConst (VI32 8%Z)); FBasic (BOp (SNum2 (B_int W32 Ishr_u))); FBasic (BOp (SNum1 (U_int W32 Iclz))); FBasic (BTee 4); FBasic (BOp (SNum2 (B_int W32 Isub))); FBasic (BOp (SNum2 (B_int W32 Ishr_u))); FBasic (BConst (VI32 1%Z)); FBasic (BOp (SNum2 (B_int W32 Iand))); FBasic (BGet 4); FBasic (BConst (VI32 1%Z)); FBasic (BOp (SNum2 (B_int W32 Ishl))); FBasic (BOp (SNum2 (B_int W32 Isub))); FBasic (BConst (VI32 62%Z)); FBasic (BOp (SNum2 (B_int W32 Iadd))); FBasic (BSet 7); FEnd; FBasic (BConst (VI32 0%Z)); FBasic (BGet 5); FBasic (BOp (SNum2 (B_int W32 Isub))); FBasic (BSet 3); FBlock false [] []; FBlock false [] []; FBlock false [] []; FBlock false [] []; FBasic (BGet 7); FBasic (BConst (VI32 2%Z)); FBasic (BOp (SNum2 (B_int W32 Ishl))); FBasic (BConst (VI32 1057616%Z)); FBasic (BOp (SNum2 (B_int W32 Iadd))); FBasic (BOp (SLoad LI32 0%Z)); FBasic (BTee 0); FBrIf 0; FBasic (BConst (VI32 0%Z)); FBasic (BSet 4); FBasic (BConst (VI32 0%Z)); FBasic (BSet 9); FBr 1; FEnd; FBasic (BConst (VI32 0%Z)); FBasic (BSet 4); FBasic (BGet 5); FBasic (BConst (VI32 0%Z)); FBasic (BConst (VI32 25%Z)); FBasic (BGet 7); FBasic (BConst (VI32 1%Z)); FBasic (BOp (SNum2 (B_int W32 Ishr_u))); FBasic (BOp (SNum2 (B_int W32 Isub))); FBasic (BGet 7); FBasic (BConst (VI32 31%Z)); FBasic (BOp (SNum2 (B_irel W32 Ieq))); FBasic (BSelect None); FBasic (BOp (SNum2 (B_int W32 Ishl))); FBasic (BSet 8); FBasic (BConst (VI32 0%Z)); FBasic (BSet 9); FBlock true [] []; FBlock false [] []; FBasic (BGet 0); FBasic (BOp (SLoad LI32 4%Z)); FBasic (BConst (VI32 (-8)%Z)); FBasic (BOp (SNum2 (B_int W32 Iand))); FBasic (BGet 5); FBasic (BOp (SNum2 (B_int W32 Isub))); FBasic (BTee 6); FBasic (BGet 3); FBasic (BOp (SNum2 (B_irel W32 Ige_u))); FBrIf 0; FBasic (BGet 6); FBasic (BSet 3); FBasic (BGet 0); FBasic (BSet 9); FBasic (BGet 6); FBrIf 0; FBasic (BConst (VI32 0%Z)); FBasic (BSet 3); FBasic (BGet 0); FBasic (BSet 9); FBasic (BGet 0); FBasic (BSet 4); FBr 3; FEnd; FBasic (BGet 4); FBasic (BGet 0); FBasic (BOp (SLoad LI32 20%Z)); FBasic (BTee 6); FBasic (BGet 6); FBasic (BGet 0); FBasic (BGet 8); FBasic (BConst (VI32 29%Z)); FBasic (BOp (SNum2 (B_int W32 Ishr_u))); FBasic (BConst (VI32 4%Z)); FBasic (BOp (SNum2 (B_int W32 Iand))); FBasic (BOp (SNum2 (B_int W32 Iadd))); FBasic (BConst (VI32 16%Z)); FBasic (BOp (SNum2 (B_int W32 Iadd))); FBasic (BOp (SLoad LI32 0%Z)); FBasic (BTee 11); FBasic (BOp (SNum2 (B_irel W32 Ieq))); FBasic (BSelect None); FBasic (BGet 4); FBasic (BGet 6); FBasic (BSelect None); FBasic (BSet 4); FBasic (BGet 8); FBasic (BConst (VI32 1%Z)); FBasic (BOp (SNum2 (B_int W32 Ishl))); FBasic (BSet 8); FBasic (BGet 11); FBasic (BSet 0); FBasic (BGet 11); FBrIf 0; FEnd; FEnd; FBlock false [] []; FBasic (BGet 4); FBasic (BGet 9); FBasic (BOp (SNum2 (B_int W32 Ior))); FBrIf 0; FBasic (BConst (VI32 0%Z)); FBasic (BSet 9); FBasic (BConst (VI32 2%Z)); FBasic (BGet 7); FBasic (BOp (SNum2 (B_int W32 Ishl))); FBasic (BTee 4); FBasic (BConst (VI32 0%Z)); FBasic (BGet 4); FBasic (BOp (SNum2 (B_int W32 Isub))); FBasic (BOp (SNum2 (B_int W32 Ior))); FBasic (BGet 10); FBasic (BOp (SNum2 (B_int W32 Iand))); FBasic (BTee 4); FBasic (BOp (SNum1 (U_eqz W32))); FBrIf 3; FBasic (BGet 4); FBasic (BOp (SNum1 (U_int W32 Ictz))); FBasic (BConst (VI32 2%Z)); FBasic (BOp (SNum2 (B_int W32 Ishl))); FBasic (BConst (VI32 1057616%Z)); FBasic (BOp (SNum2 (B_int W32 Iadd))); FBasic (BOp (SLoad LI32 0%Z)); FBasic (BSet 4); FEnd; FBasic (BGet 4); FBasic (BOp (SNum1 (U_eqz W32))); FBrIf 1; FEnd; FBlock true [] []; FBasic (BGet 4); FBasic (BOp (SLoad LI32 4%Z)); FBasic (BConst (VI32 (-8)%Z)); FBasic (BOp (SNum2 (B_int W32 Iand))); FBasic (BGet 5); FBasic (BOp (SNum2 (B_int W32 Isub))); FBasic (BTee 6); FBasic (BGet 3); FBasic (BOp (SNum2 (B_irel W32 Ilt_u))); FBasic (BSet 8); FBlock false [] []; FBasic (BGet 4); FBasic (BOp (SLoad LI32 16%Z)); FBasic (BTee 0); FBrIf 0; FBasic (BGet 4); FBasic (BOp (SLoad LI32 20%Z)); FBasic (BSet 0); FEnd; FBasic (BGet 6); FBasic (BGet 3); FBasic (BGet 8); FBasic (BSelect None); FBasic (BSet 3); FBasic (BGet 4); FBasic (BGet 9); FBasic (BGet 8); FBasic (BSelect None); FBasic (BSet 9); FBasic (BGet 0); FBasic (BSet 4); FBasic (BGet 0); FBrIf 0; FEnd; FEnd; FBasic (BGet 9); FBasic (BOp (SNum1 (U_eqz W32))); FBrIf 0; FBasic (BGet 3); FBasic (BConst (VI32 0%Z)); FBasic (BOp (SLoad LI32 1057320%Z)); FBasic (BGet 5); FBasic (BOp (SNum2 (B_int W32 Isub))); FBasic (BOp (SNum2 (B_irel W32 Ige_u))); FBrIf 0; FBasic (BGet 9); FBasic (BOp (SLoad LI32 24%Z)); FBasic (BSet 11); FBlock false [] []; FBasic (BGet 9); FBasic (BOp (SLoad LI32 12%Z)); FBasic (BTee 4); FBasic (BGet 9); FBasic (BOp (SNum2 (B_irel W32 Ieq))); FBrIf 0; FBasic (BGet 9); FBasic (BOp (SLoad LI32 8%Z)); FBasic (BTee 0); FBasic (BGet 4); FBasic (BOp (SStore SI32 12%Z)); FBasic (BGet 4); FBasic (BGet 0); FBasic (BOp (SStore SI32 8%Z)); FBr 11; FEnd; FBlock false [] []; FBlock false [] []; FBasic (BGet 9); FBasic (BOp (SLoad LI32 20%Z)); FBasic (BTee 0); FBasic (BOp (SNum1 (U_eqz W32))); FBrIf 0; FBasic (BGet 9); FBasic (BConst (VI32 20%Z)); FBasic (BOp (SNum2 (B_int W32 Iadd))); FBasic (BSet 8); FBr 1; FEnd; FBasic (BGet 9); FBasic (BOp (SLoad LI32 16%Z)); FBasic (BTee 0); FBasic (BOp (SNum1 (U_eqz W32))); FBrIf 4; FBasic (BGet 9); FBasic (BConst (VI32 16%Z)); FBasic (BOp (SNum2 (B_int W32 Iadd))); FBasic (BSet 8); FEnd; FBlock true [] []; FBasic (BGet 8); FBasic (BSet 6); FBasic (BGet 0); FBasic (BTee 4); FBasic (BConst (VI32 20%Z)); FBasic (BOp (SNum2 (B_int W32 Iadd))); FBasic (BSet 8); FBasic (BGet 4); FBasic (BOp (SLoad LI32 20%Z)); FBasic (BTee 0); FBrIf 0; FBasic (BGet 4); FBasic (BConst (VI32 16%Z)); FBasic (BOp (SNum2 (B_int W32 Iadd))); FBasic (BSet 8); FBasic (BGet 4); FBasic (BOp (SLoad LI32 16%Z)); FBasic (BTee 0); FBrIf 0; FEnd; FBasic (BGet 6); FBasic (BConst (VI32 0%Z)); FBasic (BOp (SStore SI32 0%Z)); FBr 10; FEnd; FBlock false [] []; FBasic (BConst (VI32 0%Z)); FBasic (BOp (SLoad LI32 1057320%Z)); FBasic (BTee 4); FBasic (BGet 5); FBasic (BOp (SNum2 (B_irel W32 Ilt_u))); FBrIf 0; FBasic (BConst (VI32 0%Z)); FBasic (BOp (SLoad LI32 1057332%Z)); FBasic (BSet 3); FBlock false [] []; FBlock false [] []; FBasic (BGet 4); FBasic (BGet 5); FBasic (BOp (SNum2 (B_int W32 Isub))); FBasic (BTee 0); FBasic (BConst (VI32 16%Z)); FBasic (BOp (SNum2 (B_irel W32 Ilt_u))); FBrIf 0; FBasic (BGet 3); FBasic (BGet 5); FBasic (BOp (SNum2 (B_int W32 Iadd))); FBasic (BTee 8); FBasic (BGet 0); FBasic (BConst (VI32 1%Z)); FBasic (BOp (SNum2 (B_int W32 Ior))); FBasic (BOp (SStore SI32 4%Z)); FBasic (BGet 3); FBasic (BGet 4); FBasic (BOp (SNum2 (B_int W32 Iadd))); FBasic (BGet 0); FBasic (BOp (SStore SI32 0%Z)); FBasic (BGet 3); FBasic (BGet 5); FBasic (BConst (VI32 3%Z)); FBasic (BOp (SNum2 (B_int W32 Ior))); FBasic (BOp (SStore SI32 4%Z)); FBr 1; FEnd; FBasic (BGet 3); FBasic (BGet 4); FBasic (BConst (VI32 3%Z)); FBasic (BOp (SNum2 (B_int W32 Ior))); FBasic (BOp (SStore SI32 4%Z)); FBasic (BGet 3); FBasic (BGet 4); FBasic (BOp (SNum2 (B_int W32 Iadd))); FBasic (BTee 4); FBasic (BGet 4); FBasic (BOp (SLoad LI32 4%Z)); FBasic (BConst (VI32 1%Z)); FBasic (BOp (SNum2 (B_int W32 Ior))); FBasic (BOp (SStore SI32 4%Z)); FBasic (BConst (VI32 0%Z)); FBasic (BSet 8); FBasic (BConst (VI32 0%Z)); FBasic (BSet 0); FEnd; FBasic (BConst (VI32 0%Z)); FBasic (BGet 0); FBasic (BOp (SStore SI32 1057320%Z)); FBasic (BConst (VI32 0%Z)); FBasic (BGet 8); FBasic (BOp (SStore SI32 1057332%Z)); FBasic (BGet 3); FBasic (BConst (VI32 8%Z)); FBasic (BOp (SNum2 (B_int W32 Iadd))); FBasic (BSet 4); FBr 12; FEnd; FBlock false [] []; FBasic (BConst (VI32 0%Z)); FBasic (BOp (SLoad LI32 1057324%Z)); FBasic (BTee 0); FBasic (BGet 5); FBasic (BOp (SNum2 (B_irel W32 Ile_u))); FBrIf 0; FBasic (BGet 2); FBasic (BGet 5); FBasic (BOp (SNum2 (B_int W32 Iadd))); FBasic (BTee 4); FBasic (BGet 0); FBasic (BGet 5); FBasic (BOp (SNum2 (B_int W32 Isub))); FBasic (BTee 3); FBasic (BConst (VI32 1%Z)); FBasic (BOp (SNum2 (B_int W32 Ior))); FBasic (BOp (SStore SI32 4%Z)); FBasic (BConst (VI32 0%Z)); FBasic (BGet 4); FBasic (BOp (SStore SI32 1057336%Z)); FBasic (BConst (VI32 0%Z)); FBasic (BGet 3); FBasic (BOp (SStore SI32 1057324%Z)); FBasic (BGet 2); FBasic (BGet 5); FBasic (BConst (VI32 3%Z)); FBasic (BOp (SNum2 (B_int W32 Ior))); FBasic (BOp (SStore SI32 4%Z)); FBasic (BGet 2); FBasic (BConst (VI32 8%Z)); FBasic (BOp (SNum2 (B_int W32 Iadd))); FBasic (BSet 4); FBr 12; FEnd; FBlock false [] []; FBlock false [] []; FBasic (BConst (VI32 0%Z)); FBasic (BOp (SLoad LI32 1057784%Z)); FBasic (BOp (SNum1 (U_eqz W32))); FBrIf 0; FBasic (BConst (VI32 0%Z)); FBasic (BOp (SLoad LI32 1057792%Z)); FBasic (BSet 3); FBr 1; FEnd; FBasic (BConst (VI32 0%Z)); FBasic (BConst (VI64 (-1)%Z)); FBasic (BOp (SStore SI64 1057796%Z)); FBasic (BConst (VI32 0%Z)); FBasic (BConst (VI64 281474976776192%Z)); FBasic (BOp (SStore SI64 1057788%Z)); FBasic (BConst (VI32 0%Z)); FBasic (BGet 1); FBasic (BConst (VI32 12%Z)); FBasic (BOp (SNum2 (B_int W32 Iadd))); FBasic (BConst (VI32 (-16)%Z)); FBasic (BOp (SNum2 (B_int W32 Iand))); FBasic (BConst (VI32 1431655768%Z)); FBasic (BOp (SNum2 (B_int W32 Ixor))); FBasic (BOp (SStore SI32 1057784%Z)); FBasic (BConst (VI32 0%Z)); FBasic (BConst (VI32 0%Z)); FBasic (BOp (SStore SI32 1057804%Z)); FBasic (BConst (VI32 0%Z)); FBasic (BConst (VI32 0%Z)); FBasic (BOp (SStore SI32 1057756%Z)); FBasic (BConst (VI32 65536%Z)); FBasic (BSet 3); FEnd; FBasic (BConst (VI32 0%Z)); FBasic (BSet 4); FBlock false [] []; FBasic (BGet 3); FBasic (BGet 5); FBasic (BConst (VI32 71%Z)); FBasic (BOp (SNum2 (B_int W32 Iadd))); FBasic (BTee 11); FBasic (BOp (SNum2 (B_int W32 Iadd))); FBasic (BTee 8); FBasic (BConst (VI32 0%Z)); FBasic (BGet 3); FBasic (BOp (SNum2 (B_int W32 Isub))); FBasic (BTee 6); FBasic (BOp (SNum2 (B_int W32 Iand))); FBasic (BTee 9); FBasic (BGet 5); FBasic (BOp (SNum2 (B_irel W32 Igt_u))); FBrIf 0; FBasic (BConst (VI32 0%Z)); FBasic (BConst (VI32 48%Z)); FBasic (BOp (SStore SI32 1057808%Z)); FBr 12; FEnd; FBlock false [] []; FBasic (BConst (VI32 0%Z)); FBasic (BOp (SLoad LI32 1057752%Z)); FBasic (BTee 4); FBasic (BOp (SNum1 (U_eqz W32))); FBrIf 0; FBlock false [] []; FBasic (BConst (VI32 0%Z)); FBasic (BOp (SLoad LI32 1057744%Z)); FBasic (BTee 3); FBasic (BGet 9); FBasic (BOp (SNum2 (B_int W32 Iadd))); FBasic (BTee 7); FBasic (BGet 3); FBasic (BOp (SNum2 (B_irel W32 Ile_u))); FBrIf 0; FBasic (BGet 7); FBasic (BGet 4); FBasic (BOp (SNum2 (B_irel W32 Ile_u))); FBrIf 1; FEnd; FBasic (BConst (VI32 0%Z)); FBasic (BSet 4); FBasic (BConst (VI32 0%Z)); FBasic (BConst (VI32 48%Z)); FBasic (BOp (SStore SI32 1057808%Z)); FBr 12; FEnd; FBasic (BConst (VI32 0%Z)); FBasic (BOp (SLoad LI32_8u 1057756%Z)); FBasic (BConst (VI32 4%Z)); FBasic (BOp (SNum2 (B_int W32 Iand))); FBrIf 5; FBlock false [] []; FBlock false [] []; FBlock false [] []; FBasic (BGet 2); FBasic (BOp (SNum1 (U_eqz W32))); FBrIf 0; FBasic (BConst (VI32 1057760%Z)); FBasic (BSet 4); FBlock true [] []; FBlock false [] []; FBasic (BGet 4); FBasic (BOp (SLoad LI32 0%Z)); FBasic (BTee 3); FBasic (BGet 2); FBasic (BOp (SNum2 (B_irel W32 Igt_u))); FBrIf 0; FBasic (BGet 3); FBasic (BGet 4); FBasic (BOp (SLoad LI32 4%Z)); FBasic (BOp (SNum2 (B_int W32 Iadd))); FBasic (BGet 2); FBasic (BOp (SNum2 (B_irel W32 Igt_u))); FBrIf 3; FEnd; FBasic (BGet 4); FBasic (BOp (SLoad LI32 8%Z)); FBasic (BTee 4); FBrIf 0; FEnd; FEnd; FBasic (BConst (VI32 0%Z)); FCall 130; FBasic (BTee 8); FBasic (BConst (VI32 (-1)%Z)); FBasic (BOp (SNum2 (B_irel W32 Ieq))); FBrIf 6; FBasic (BGet 9); FBasic (BSet 6); FBlock false [] []; FBasic (BConst (VI32 0%Z)); FBasic (BOp (SLoad LI32 1057788%Z)); FBasic (BTee 4); FBasic (BConst (VI32 (-1)%Z)); FBasic (BOp (SNum2 (B_int W32 Iadd))); FBasic (BTee 3); FBasic (BGet 8); FBasic (BOp (SNum2 (B_int W32 Iand))); FBasic (BOp (SNum1 (U_eqz W32))); FBrIf 0; FBasic (BGet 9); FBasic (BGet 8); FBasic (BOp (SNum2 (B_int W32 Isub))); FBasic (BGet 3); FBasic (BGet 8); FBasic (BOp (SNum2 (B_int W32 Iadd))); FBasic (BConst (VI32 0%Z)); FBasic (BGet 4); FBasic (BOp (SNum2 (B_int W32 Isub))); FBasic (BOp (SNum2 (B_int W32 Iand))); FBasic (BOp (SNum2 (B_int W32 Iadd))); FBasic (BSet 6); FEnd; FBasic (BGet 6); FBasic (BGet 5); FBasic (BOp (SNum2 (B_irel W32 Ile_u))); FBrIf 6; FBasic (BGet 6); FBasic (BConst (VI32 2147483646%Z)); FBasic (BOp (SNum2 (B_irel W32 Igt_u))); FBrIf 6; FBlock false [] []; FBasic (BConst (VI32 0%Z)); FBasic (BOp (SLoad LI32 1057752%Z)); FBasic (BTee 4); FBasic (BOp (SNum1 (U_eqz W32))); FBrIf 0; FBasic (BConst (VI32 0%Z)); FBasic (BOp (SLoad LI32 1057744%Z)); FBasic (BTee 3); FBasic (BGet 6); FBasic (BOp (SNum2 (B_int W32 Iadd))); FBasic (BTee 0); FBasic (BGet 3); FBasic (BOp (SNum2 (B_irel W32 Ile_u))); FBrIf 7; FBasic (BGet 0); FBasic (BGet 4); FBasic (BOp (SNum2 (B_irel W32 Igt_u))); FBrIf 7; FEnd; FBasic (BGet 6); FCall 130; FBasic (BTee 4); FBasic (BGet 8); FBasic (BOp (SNum2 (B_irel W32 Ine))); FBrIf 1; FBr 8; FEnd; FBasic (BGet 8); FBasic (BGet 0); FBasic (BOp (SNum2 (B_int W32 Isub))); FBasic (BGet 6); FBasic (BOp (SNum2 (B_int W32 Iand))); FBasic (BTee 6); FBasic (BConst (VI32 2147483646%Z)); FBasic (BOp (SNum2 (B_irel W32 Igt_u))); FBrIf 5; FBasic (BGet 6); FCall 130; FBasic (BTee 8); FBasic (BGet 4); FBasic (BOp (SLoad LI32 0%Z)); FBasic (BGet 4); FBasic (BOp (SLoad LI32 4%Z)); FBasic (BOp (SNum2 (B_int W32 Iadd))); FBasic (BOp (SNum2 (B_irel W32 Ieq))); FBrIf 4; FBasic (BGet 8); FBasic (BSet 4); FEnd; FBlock false [] []; FBasic (BGet 6); FBasic (BGet 5); FBasic (BConst (VI32 72%Z)); FBasic (BOp (SNum2 (B_int W32 Iadd))); FBasic (BOp (SNum2 (B_irel W32 Ige_u))); FBrIf 0; FBasic (BGet 4); FBasic (BConst (VI32 (-1)%Z)); FBasic (BOp (SNum2 (B_irel W32 Ieq))); FBrIf 0; FBlock false [] []; FBasic (BGet 11); FBasic (BGet 6); FBasic (BOp (SNum2 (B_int W32 Isub))); FBasic (BConst (VI32 0%Z)); FBasic (BOp (SLoad LI32 1057792%Z)); FBasic (BTee 3); FBasic (BOp (SNum2 (B_int W32 Iadd))); FBasic (BConst (VI32 0%Z)); FBasic (BGet 3); FBasic (BOp (SNum2 (B_int W32 Isub))); FBasic (BOp (SNum2 (B_int W32 Iand))); FBasic (BTee 3); FBasic (BConst (VI32 2147483646%Z)); FBasic (BOp (SNum2 (B_irel W32 Ile_u))); FBrIf 0; FBasic (BGet 4); FBasic (BSet 8); FBr 8; FEnd; FBlock false [] []; FBasic (BGet 3); FCall 130; FBasic (BConst (VI32 (-1)%Z)); FBasic (BOp (SNum2 (B_irel W32 Ieq))); FBrIf 0; FBasic (BGet 3); FBasic (BGet 6); FBasic (BOp (SNum2 (B_int W32 Iadd))); FBasic (BSet 6); FBasic (BGet 4); FBasic (BSet 8); FBr 8; FEnd; FBasic (BConst (VI32 0%Z)); FBasic (BGet 6); FBasic (BOp (SNum2 (B_int W32 Isub))); FCall 130; FBasic BDrop; FBr 5; FEnd; FBasic (BGet 4); FBasic (BSet 8); FBasic (BGet 4); FBasic (BConst (VI32 (-1)%Z)); FBasic (BOp (SNum2 (B_irel W32 Ine))); FBrIf 6; FBr 4; FEnd; FUnreachable; FEnd; FBasic (BConst (VI32 0%Z)); FBasic (BSet 4); FBr 8; FEnd; FBasic (BConst (VI32 0%Z)); FBasic (BSet 4); FBr 6; FEnd; FBasic (BGet 8); FBasic (BConst (VI32 (-1)%Z)); FBasic (BOp (SNum2 (B_irel W32 Ine))); FBrIf 2; FEnd; FBasic (BConst (VI32 0%Z)); FBasic (BConst (VI32 0%Z)); FBasic (BOp (SLoad LI32 1057756%Z)); FBasic (BConst (VI32 4%Z)); FBasic (BOp (SNum2 (B_int W32 Ior))); FBasic (BOp (SStore SI32 1057756%Z)); FEnd; FBasic (BGet 9); FBasic (BConst (VI32 2147483646%Z)); FBasic (BOp (SNum2 (B_irel W32 Igt_u))); FBrIf 1; FBasic (BGet 9); FCall 130; FBasic (BSet 8); FBasic (BConst (VI32 0%Z)); FCall 130; FBasic (BSet 4); FBasic (BGet 8); FBasic (BConst (VI32 (-1)%Z)); FBasic (BOp (SNum2 (B_irel W32 Ieq))); FBrIf 1; FBasic (BGet 4); FBasic (BConst (VI32 (-1)%Z)); FBasic (BOp (SNum2 (B_irel W32 Ieq))); FBrIf 1; FBasic (BGet 8); FBasic (BGet 4); FBasic (BOp (SNum2 (B_irel W32 Ige_u))); FBrIf 1; FBasic (BGet 4); FBasic (BGet 8); FBasic (BOp (SNum2 (B_int W32 Isub))); FBasic (BTee 6); FBasic (BGet 5); FBasic (BConst (VI32 56%Z)); FBasic (BOp (SNum2 (B_int W32 Iadd))); FBasic (BOp (SNum2 (B_irel W32 Ile_u))); FBrIf 1; FEnd; FBasic (BConst (VI32 0%Z)); FBasic (BConst (VI32 0%Z)); FBasic (BOp (SLoad LI32 1057744%Z)); FBasic (BGet 6); FBasic (BOp (SNum2 (B_int W32 Iadd))); FBasic (BTee 4); FBasic (BOp (SStore SI32 1057744%Z)); FBlock false [] []; FBasic (BGet 4); FBasic (BConst (VI32 0%Z)); FBasic (BOp (SLoad LI32 1057748%Z)); FBasic (BOp (SNum2 (B_irel W32 Ile_u))); FBrIf 0; FBasic (BConst (VI32 0%Z)); FBasic (BGet 4); FBasic (BOp (SStore SI32 1057748%Z)); FEnd; FBlock false [] []; FBlock false [] []; FBlock false [] []; FBlock false [] []; FBasic (BConst (VI32 0%Z)); FBasic (BOp (SLoad LI32 1057336%Z)); FBasic (BTee 3); FBasic (BOp (SNum1 (U_eqz W32))); FBrIf 0; FBasic (BConst (VI32 1057760%Z)); FBasic (BSet 4); FBlock true [] []; FBasic (BGet 8); FBasic (BGet 4); FBasic (BOp (SLoad LI32 0%Z)); FBasic (BTee 0); FBasic (BGet 4); FBasic (BOp (SLoad LI32 4%Z)); FBasic (BTee 9); FBasic (BOp (SNum2 (B_int W32 Iadd))); FBasic (BOp (SNum2 (B_irel W32 Ieq))); FBrIf 2; FBasic (BGet 4); FBasic (BOp (SLoad LI32 8%Z)); FBasic (BTee 4); FBrIf 0; FBr 3; FEnd; FEnd; FBlock false [] []; FBlock false [] []; FBasic (BConst (VI32 0%Z)); FBasic (BOp (SLoad LI32 1057328%Z)); FBasic (BTee 4); FBasic (BOp (SNum1 (U_eqz W32))); FBrIf 0; FBasic (BGet 8); FBasic (BGet 4); FBasic (BOp (SNum2 (B_irel W32 Ige_u))); FBrIf 1; FEnd; FBasic (BConst (VI32 0%Z)); FBasic (BGet 8); FBasic (BOp (SStore SI32 1057328%Z)); FEnd; FBasic (BConst (VI32 0%Z)); FBasic (BSet 4); FBasic (BConst (VI32 0%Z)); FBasic (BGet 6); FBasic (BOp (SStore SI32 1057764%Z)); FBasic (BConst (VI32 0%Z)); FBasic (BGet 8); FBasic (BOp (SStore SI32 1057760%Z)); FBasic (BConst (VI32 0%Z)); FBasic (BConst (VI32 (-1)%Z)); FBasic (BOp (SStore SI32 1057344%Z)); FBasic (BConst (VI32 0%Z)); FBasic (BConst (VI32 0%Z)); FBasic (BOp (SLoad LI32 1057784%Z)); FBasic (BOp (SStore SI32 1057348%Z)); FBasic (BConst (VI32 0%Z)); FBasic (BConst (VI32 0%Z)); FBasic (BOp (SStore SI32 1057772%Z)); FBlock true [] []; FBasic (BGet 4); FBasic (BConst (VI32 1057372%Z)); FBasic (BOp (SNum2 (B_int W32 Iadd))); FBasic (BGet 4); FBasic (BConst (VI32 1057360%Z)); FBasic (BOp (SNum2 (B_int W32 Iadd))); FBasic (BTee 3); FBasic (BOp (SStore SI32 0%Z)); FBasic (BGet 3); FBasic (BGet 4); FBasic (BConst (VI32 1057352%Z)); FBasic (BOp (SNum2 (B_int W32 Iadd))); FBasic (BTee 0); FBasic (BOp (SStore SI32 0%Z)); FBasic (BGet 4); FBasic (BConst (VI32 1057364%Z)); FBasic (BOp (SNum2 (B_int W32 Iadd))); FBasic (BGet 0); FBasic (BOp (SStore SI32 0%Z)); FBasic (BGet 4); FBasic (BConst (VI32 1057380%Z)); FBasic (BOp (SNum2 (B_int W32 Iadd))); FBasic (BGet 4); FBasic (BConst (VI32 1057368%Z)); FBasic (BOp (SNum2 (B_int W32 Iadd))); FBasic (BTee 0); FBasic (BOp (SStore SI32 0%Z)); FBasic (BGet 0); FBasic (BGet 3); FBasic (BOp (SStore SI32 0%Z)); FBasic (BGet 4); FBasic (BConst (VI32 1057388%Z)); FBasic (BOp (SNum2 (B_int W32 Iadd))); FBasic (BGet 4); FBasic (BConst (VI32 1057376%Z)); FBasic (BOp (SNum2 (B_int W32 Iadd))); FBasic (BTee 3); FBasic (BOp (SStore SI32 0%Z)); FBasic (BGet 3); FBasic (BGet 0); FBasic (BOp (SStore SI32 0%Z)); FBasic (BGet 4); FBasic (BConst (VI32 1057384%Z)); FBasic (BOp (SNum2 (B_int W32 Iadd))); FBasic (BGet 3); FBasic (BOp (SStore SI32 0%Z)); FBasic (BGet 4); FBasic (BConst (VI32 32%Z)); FBasic (BOp (SNum2 (B_int W32 Iadd))); FBasic (BTee 4); FBasic (BConst (VI32 256%Z)); FBasic (BOp (SNum2 (B_irel W32 Ine))); FBrIf 0; FEnd; FBasic (BGet 8); FBasic (BConst (VI32 (-8)%Z)); FBasic (BGet 8); FBasic (BOp (SNum2 (B_int W32 Isub))); FBasic (BConst (VI32 15%Z)); FBasic (BOp (SNum2 (B_int W32 Iand))); FBasic (BTee 4); FBasic (BOp (SNum2 (B_int W32 Iadd))); FBasic (BTee 3); FBasic (BGet 6); FBasic (BConst (VI32 (-56)%Z)); FBasic (BOp (SNum2 (B_int W32 Iadd))); FBasic (BTee 0); FBasic (BGet 4); FBasic (BOp (SNum2 (B_int W32 Isub))); FBasic (BTee 4); FBasic (BConst (VI32 1%Z)); FBasic (BOp (SNum2 (B_int W32 Ior))); FBasic (BOp (SStore SI32 4%Z)); FBasic (BConst (VI32 0%Z)); FBasic (BConst (VI32 0%Z)); FBasic (BOp (SLoad LI32 1057800%Z)); FBasic (BOp (SStore SI32 1057340%Z)); FBasic (BConst (VI32 0%Z)); FBasic (BGet 4); FBasic (BOp (SStore SI32 1057324%Z)); FBasic (BConst (VI32 0%Z)); FBasic (BGet 3); FBasic (BOp (SStore SI32 1057336%Z)); FBasic (BGet 8); FBasic (BGet 0); FBasic (BOp (SNum2 (B_int W32 Iadd))); FBasic (BConst (VI32 56%Z)); FBasic (BOp (SStore SI32 4%Z)); FBr 2; FEnd; FBasic (BGet 3); FBasic (BGet 8); FBasic (BOp (SNum2 (B_irel W32 Ige_u))); FBrIf 0; FBasic (BGet 3); FBasic (BGet 0); FBasic (BOp (SNum2 (B_irel W32 Ilt_u))); FBrIf 0; FBasic (BGet 4); FBasic (BOp (SLoad LI32 12%Z)); FBasic (BConst (VI32 8%Z)); FBasic (BOp (SNum2 (B_int W32 Iand))); FBrIf 0; FBasic (BGet 3); FBasic (BConst (VI32 (-8)%Z)); FBasic (BGet 3); FBasic (BOp (SNum2 (B_int W32 Isub))); FBasic (BConst (VI32 15%Z)); FBasic (BOp (SNum2 (B_int W32 Iand))); FBasic (BTee 0); FBasic (BOp (SNum2 (B_int W32 Iadd))); FBasic (BTee 8); FBasic (BConst (VI32 0%Z)); FBasic (BOp (SLoad LI32 1057324%Z)); FBasic (BGet 6); FBasic (BOp (SNum2 (B_int W32 Iadd))); FBasic (BTee 11); FBasic (BGet 0); FBasic (BOp (SNum2 (B_int W32 Isub))); FBasic (BTee 0); FBasic (BConst (VI32 1%Z)); FBasic (BOp (SNum2 (B_int W32 Ior))); FBasic (BOp (SStore SI32 4%Z)); FBasic (BGet 4); FBasic (BGet 9); FBasic (BGet 6); FBasic (BOp (SNum2 (B_int W32 Iadd))); FBasic (BOp (SStore SI32 4%Z)); FBasic (BConst (VI32 0%Z)); FBasic (BConst (VI32 0%Z)); FBasic (BOp (SLoad LI32 1057800%Z)); FBasic (BOp (SStore SI32 1057340%Z)); FBasic (BConst (VI32 0%Z)); FBasic (BGet 0); FBasic (BOp (SStore SI32 1057324%Z)); FBasic (BConst (VI32 0%Z)); FBasic (BGet 8); FBasic (BOp (SStore SI32 1057336%Z)); FBasic (BGet 3); FBasic (BGet 11); FBasic (BOp (SNum2 (B_int W32 Iadd))); FBasic (BConst (VI32 56%Z)); FBasic (BOp (SStore SI32 4%Z)); FBr 1; FEnd; FBlock false [] []; FBasic (BGet 8); FBasic (BConst (VI32 0%Z)); FBasic (BOp (SLoad LI32 1057328%Z)); FBasic (BOp (SNum2 (B_irel W32 Ige_u))); FBrIf 0; FBasic (BConst (VI32 0%Z)); FBasic (BGet 8); FBasic (BOp (SStore SI32 1057328%Z)); FEnd; FBasic (BGet 8); FBasic (BGet 6); FBasic (BOp (SNum2 (B_int W32 Iadd))); FBasic (BSet 0); FBasic (BConst (VI32 1057760%Z)); FBasic (BSet 4); FBlock false [] []; FBlock false [] []; FBlock true [] []; FBasic (BGet 4); FBasic (BOp (SLoad LI32 0%Z)); FBasic (BTee 9); FBasic (BGet 0); FBasic (BOp (SNum2 (B_irel W32 Ieq))); FBrIf 1; FBasic (BGet 4); FBasic (BOp (SLoad LI32 8%Z)); FBasic (BTee 4); FBrIf 0; FBr 2; FEnd; FEnd; FBasic (BGet 4); FBasic (BOp (SLoad LI32_8u 12%Z)); FBasic (BConst (VI32 8%Z)); FBasic (BOp (SNum2 (B_int W32 Iand))); FBasic (BOp (SNum1 (U_eqz W32))); FBrIf 3; FEnd; FBasic (BConst (VI32 1057760%Z)); FBasic (BSet 4); FBlock false [] []; FBlock true [] []; FBlock false [] []; FBasic (BGet 4); FBasic (BOp (SLoad LI32 0%Z)); FBasic (BTee 0); FBasic (BGet 3); FBasic (BOp (SNum2 (B_irel W32 Igt_u))); FBrIf 0; FBasic (BGet 0); FBasic (BGet 4); FBasic (BOp (SLoad LI32 4%Z)); FBasic (BOp (SNum2 (B_int W32 Iadd))); FBasic (BTee 0); FBasic (BGet 3); FBasic (BOp (SNum2 (B_irel W32 Igt_u))); FBrIf 2; FEnd; FBasic (BGet 4); FBasic (BOp (SLoad LI32 8%Z)); FBasic (BSet 4); FBr 0; FEnd; FEnd; FBasic (BGet 8); FBasic (BConst (VI32 (-8)%Z)); FBasic (BGet 8); FBasic (BOp (SNum2 (B_int W32 Isub))); FBasic (BConst (VI32 15%Z)); FBasic (BOp (SNum2 (B_int W32 Iand))); FBasic (BTee 4); FBasic (BOp (SNum2 (B_int W32 Iadd))); FBasic (BTee 11); FBasic (BGet 6); FBasic (BConst (VI32 (-56)%Z)); FBasic (BOp (SNum2 (B_int W32 Iadd))); FBasic (BTee 9); FBasic (BGet 4); FBasic (BOp (SNum2 (B_int W32 Isub))); FBasic (BTee 4); FBasic (BConst (VI32 1%Z)); FBasic (BOp (SNum2 (B_int W32 Ior))); FBasic (BOp (SStore SI32 4%Z)); FBasic (BGet 8); FBasic (BGet 9); FBasic (BOp (SNum2 (B_int W32 Iadd))); FBasic (BConst (VI32 56%Z)); FBasic (BOp (SStore SI32 4%Z)); FBasic (BGet 3); FBasic (BGet 0); FBasic (BConst (VI32 55%Z)); FBasic (BGet 0); FBasic (BOp (SNum2 (B_int W32 Isub))); FBasic (BConst (VI32 15%Z)); FBasic (BOp (SNum2 (B_int W32 Iand))); FBasic (BOp (SNum2 (B_int W32 Iadd))); FBasic (BConst (VI32 (-63)%Z)); FBasic (BOp (SNum2 (B_int W32 Iadd))); FBasic (BTee 9); FBasic (BGet 9); FBasic (BGet 3); FBasic (BConst (VI32 16%Z)); FBasic (BOp (SNum2 (B_int W32 Iadd))); FBasic (BOp (SNum2 (B_irel W32 Ilt_u))); FBasic (BSelect None); FBasic (BTee 9); FBasic (BConst (VI32 35%Z)); FBasic (BOp (SStore SI32 4%Z)); FBasic (BConst (VI32 0%Z)); FBasic (BConst (VI32 0%Z)); FBasic (BOp (SLoad LI32 1057800%Z)); FBasic (BOp (SStore SI32 1057340%Z)); FBasic (BConst (VI32 0%Z)); FBasic (BGet 4); FBasic (BOp (SStore SI32 1057324%Z)); FBasic (BConst (VI32 0%Z)); FBasic (BGet 11); FBasic (BOp (SStore SI32 1057336%Z)); FBasic (BGet 9); FBasic (BConst (VI32 16%Z)); FBasic (BOp (SNum2 (B_int W32 Iadd))); FBasic (BConst (VI32 0%Z)); FBasic (BOp (SLoad LI64 1057768%Z)); FBasic (BOp (SStore SI64 0%Z)); FBasic (BGet 9); FBasic (BConst (VI32 0%Z)); FBasic (BOp (SLoad LI64 1057760%Z)); FBasic (BOp (SStore SI64 8%Z)); FBasic (BConst (VI32 0%Z)); FBasic (BGet 9); FBasic (BConst (VI32 8%Z)); FBasic (BOp (SNum2 (B_int W32 Iadd))); FBasic (BOp (SStore SI32 1057768%Z)); FBasic (BConst (VI32 0%Z)); FBasic (BGet 6); FBasic (BOp (SStore SI32 1057764%Z)); FBasic (BConst (VI32 0%Z)); FBasic (BGet 8); FBasic (BOp (SStore SI32 1057760%Z)); FBasic (BConst (VI32 0%Z)); FBasic (BConst (VI32 0%Z)); FBasic (BOp (SStore SI32 1057772%Z)); FBasic (BGet 9); FBasic (BConst (VI32 36%Z)); FBasic (BOp (SNum2 (B_int W32 Iadd))); FBasic (BSet 4); FBlock true [] []; FBasic (BGet 4); FBasic (BConst (VI32 7%Z)); FBasic (BOp (SStore SI32 0%Z)); FBasic (BGet 4); FBasic (BConst (VI32 4%Z)); FBasic (BOp (SNum2 (B_int W32 Iadd))); FBasic (BTee 4); FBasic (BGet 0); FBasic (BOp (SNum2 (B_irel W32 Ilt_u))); FBrIf 0; FEnd; FBasic (BGet 9); FBasic (BGet 3); FBasic (BOp (SNum2 (B_irel W32 Ieq))); FBrIf 0; FBasic (BGet 9); FBasic (BGet 9); FBasic (BOp (SLoad LI32 4%Z)); FBasic (BConst (VI32 (-2)%Z)); FBasic (BOp (SNum2 (B_int W32 Iand))); FBasic (BOp (SStore SI32 4%Z)); FBasic (BGet 9); FBasic (BGet 9); FBasic (BGet 3); FBasic (BOp (SNum2 (B_int W32 Isub))); FBasic (BTee 8); FBasic (BOp (SStore SI32 0%Z)); FBasic (BGet 3); FBasic (BGet 8); FBasic (BConst (VI32 1%Z)); FBasic (BOp (SNum2 (B_int W32 Ior))); FBasic (BOp (SStore SI32 4%Z)); FBlock false [] []; FBlock false [] []; FBasic (BGet 8); FBasic (BConst (VI32 255%Z)); FBasic (BOp (SNum2 (B_irel W32 Igt_u))); FBrIf 0; FBasic (BGet 8); FBasic (BConst (VI32 (-8)%Z)); FBasic (BOp (SNum2 (B_int W32 Iand))); FBasic (BConst (VI32 1057352%Z)); FBasic (BOp (SNum2 (B_int W32 Iadd))); FBasic (BSet 4); FBlock false [] []; FBlock false [] []; FBasic (BConst (VI32 0%Z)); FBasic (BOp (SLoad LI32 1057312%Z)); FBasic (BTee 0); FBasic (BConst (VI32 1%Z)); FBasic (BGet 8); FBasic (BConst (VI32 3%Z)); FBasic (BOp (SNum2 (B_int W32 Ishr_u))); FBasic (BOp (SNum2 (B_int W32 Ishl))); FBasic (BTee 8); FBasic (BOp (SNum2 (B_int W32 Iand))); FBrIf 0; FBasic (BConst (VI32 0%Z)); FBasic (BGet 0); FBasic (BGet 8); FBasic (BOp (SNum2 (B_int W32 Ior))); FBasic (BOp (SStore SI32 1057312%Z)); FBasic (BGet 4); FBasic (BSet 0); FBr 1; FEnd; FBasic (BGet 4); FBasic (BOp (SLoad LI32 8%Z)); FBasic (BSet 0); FEnd; FBasic (BGet 0); FBasic (BGet 3); FBasic (BOp (SStore SI32 12%Z)); FBasic (BGet 4); FBasic (BGet 3); FBasic (BOp (SStore SI32 8%Z)); FBasic (BConst (VI32 12%Z)); FBasic (BSet 8); FBasic (BConst (VI32 8%Z)); FBasic (BSet 9); FBr 1; FEnd; FBasic (BConst (VI32 31%Z)); FBasic (BSet 4); FBlock false [] []; FBasic (BGet 8); FBasic (BConst (VI32 16777215%Z)); FBasic (BOp (SNum2 (B_irel W32 Igt_u))); FBrIf 0; FBasic (BGet 8); FBasic (BConst (VI32 38%Z)); FBasic (BGet 8); FBasic (BConst (VI32 8%Z)); FBasic (BOp (SNum2 (B_int W32 Ishr_u))); FBasic (BOp (SNum1 (U_int W32 Iclz))); FBasic (BTee 4); FBasic (BOp (SNum2 (B_int W32 Isub))); FBasic (BOp (SNum2 (B_int W32 Ishr_u))); FBasic (BConst (VI32 1%Z)); FBasic (BOp (SNum2 (B_int W32 Iand))); FBasic (BGet 4); FBasic (BConst (VI32 1%Z)); FBasic (BOp (SNum2 (B_int W32 Ishl))); FBasic (BOp (SNum2 (B_int W32 Isub))); FBasic (BConst (VI32 62%Z)); FBasic (BOp (SNum2 (B_int W32 Iadd))); FBasic (BSet 4); FEnd; FBasic (BGet 3); FBasic (BGet 4); FBasic (BOp (SStore SI32 28%Z)); FBasic (BGet 3); FBasic (BConst (VI64 0%Z)); FBasic (BOp (SStore SI64 16%Z)); FBasic (BGet 4); FBasic (BConst (VI32 2%Z)); FBasic (BOp (SNum2 (B_int W32 Ishl))); FBasic (BConst (VI32 1057616%Z)); FBasic (BOp (SNum2 (B_int W32 Iadd))); FBasic (BSet 0); FBlock false [] []; FBlock false [] []; FBlock false [] []; FBasic (BConst (VI32 0%Z)); FBasic (BOp (SLoad LI32 1057316%Z)); FBasic (BTee 9); FBasic (BConst (VI32 1%Z)); FBasic (BGet 4); FBasic (BOp (SNum2 (B_int W32 Ishl))); FBasic (BTee 6); FBasic (BOp (SNum2 (B_int W32 Iand))); FBrIf 0; FBasic (BGet 0); FBasic (BGet 3); FBasic (BOp (SStore SI32 0%Z)); FBasic (BConst (VI32 0%Z)); FBasic (BGet 9); FBasic (BGet 6); FBasic (BOp (SNum2 (B_int W32 Ior))); FBasic (BOp (SStore SI32 1057316%Z)); FBasic (BGet 3); FBasic (BGet 0); FBasic (BOp (SStore SI32 24%Z)); FBr 1; FEnd; FBasic (BGet 8); FBasic (BConst (VI32 0%Z)); FBasic (BConst (VI32 25%Z)); FBasic (BGet 4); FBasic (BConst (VI32 1%Z)); FBasic (BOp (SNum2 (B_int W32 Ishr_u))); FBasic (BOp (SNum2 (B_int W32 Isub))); FBasic (BGet 4); FBasic (BConst (VI32 31%Z)); FBasic (BOp (SNum2 (B_irel W32 Ieq))); FBasic (BSelect None); FBasic (BOp (SNum2 (B_int W32 Ishl))); FBasic (BSet 4); FBasic (BGet 0); FBasic (BOp (SLoad LI32 0%Z)); FBasic (BSet 9); FBlock true [] []; FBasic (BGet 9); FBasic (BTee 0); FBasic (BOp (SLoad LI32 4%Z)); FBasic (BConst (VI32 (-8)%Z)); FBasic (BOp (SNum2 (B_int W32 Iand))); FBasic (BGet 8); FBasic (BOp (SNum2 (B_irel W32 Ieq))); FBrIf 2; FBasic (BGet 4); FBasic (BConst (VI32 29%Z)); FBasic (BOp (SNum2 (B_int W32 Ishr_u))); FBasic (BSet 9); FBasic (BGet 4); FBasic (BConst (VI32 1%Z)); FBasic (BOp (SNum2 (B_int W32 Ishl))); FBasic (BSet 4); FBasic (BGet 0); FBasic (BGet 9); FBasic (BConst (VI32 4%Z)); FBasic (BOp (SNum2 (B_int W32 Iand))); FBasic (BOp (SNum2 (B_int W32 Iadd))); FBasic (BConst (VI32 16%Z)); FBasic (BOp (SNum2 (B_int W32 Iadd))); FBasic (BTee 6); FBasic (BOp (SLoad LI32 0%Z)); FBasic (BTee 9); FBrIf 0; FEnd; FBasic (BGet 6); FBasic (BGet 3); FBasic (BOp (SStore SI32 0%Z)); FBasic (BGet 3); FBasic (BGet 0); FBasic (BOp (SStore SI32 24%Z)); FEnd; FBasic (BConst (VI32 8%Z)); FBasic (BSet 8); FBasic (BConst (VI32 12%Z)); FBasic (BSet 9); FBasic (BGet 3); FBasic (BSet 0); FBasic (BGet 3); FBasic (BSet 4); FBr 1; FEnd; FBasic (BGet 0); FBasic (BOp (SLoad LI32 8%Z)); FBasic (BSet 4); FBasic (BGet 0); FBasic (BGet 3); FBasic (BOp (SStore SI32 8%Z)); FBasic (BGet 4); FBasic (BGet 3); FBasic (BOp (SStore SI32 12%Z)); FBasic (BGet 3); FBasic (BGet 4); FBasic (BOp (SStore SI32 8%Z)); FBasic (BConst (VI32 0%Z)); FBasic (BSet 4); FBasic (BConst (VI32 24%Z)); FBasic (BSet 8); FBasic (BConst (VI32 12%Z)); FBasic (BSet 9); FEnd; FBasic (BGet 3); FBasic (BGet 9); FBasic (BOp (SNum2 (B_int W32 Iadd))); FBasic (BGet 0); FBasic (BOp (SStore SI32 0%Z)); FBasic (BGet 3); FBasic (BGet 8); FBasic (BOp (SNum2 (B_int W32 Iadd))); FBasic (BGet 4); FBasic (BOp (SStore SI32 0%Z)); FEnd; FBasic (BConst (VI32 0%Z)); FBasic (BOp (SLoad LI32 1057324%Z)); FBasic (BTee 4); FBasic (BGet 5); FBasic (BOp (SNum2 (B_irel W32 Ile_u))); FBrIf 0; FBasic (BConst (VI32 0%Z)); FBasic (BOp (SLoad LI32 1057336%Z)); FBasic (BTee 3); FBasic (BGet 5); FBasic (BOp (SNum2 (B_int W32 Iadd))); FBasic (BTee 0); FBasic (BGet 4); FBasic (BGet 5); FBasic (BOp (SNum2 (B_int W32 Isub))); FBasic (BTee 4); FBasic (BConst (VI32 1%Z)); FBasic (BOp (SNum2 (B_int W32 Ior))); FBasic (BOp (SStore SI32 4%Z)); FBasic (BConst (VI32 0%Z)); FBasic (BGet 4); FBasic (BOp (SStore SI32 1057324%Z)); FBasic (BConst (VI32 0%Z)); FBasic (BGet 0); FBasic (BOp (SStore SI32 1057336%Z)); FBasic (BGet 3); FBasic (BGet 5); FBasic (BConst (VI32 3%Z)); FBasic (BOp (SNum2 (B_int W32 Ior))); FBasic (BOp (SStore SI32 4%Z)); FBasic (BGet 3); FBasic (BConst (VI32 8%Z)); FBasic (BOp (SNum2 (B_int W32 Iadd))); FBasic (BSet 4); FBr 4; FEnd; FBasic (BConst (VI32 0%Z)); FBasic (BSet 4); FBasic (BConst (VI32 0%Z)); FBasic (BConst (VI32 48%Z)); FBasic (BOp (SStore SI32 1057808%Z)); FBr 3; FEnd; FBasic (BGet 4); FBasic (BGet 8); FBasic (BOp (SStore SI32 0%Z)); FBasic (BGet 4); FBasic (BGet 4); FBasic (BOp (SLoad LI32 4%Z)); FBasic (BGet 6); FBasic (BOp (SNum2 (B_int W32 Iadd))); FBasic (BOp (SStore SI32 4%Z)); FBasic (BGet 8); FBasic (BGet 9); FBasic (BGet 5); FCall 114; FBasic (BSet 4); FBr 2; FEnd; FBlock false [] []; FBasic (BGet 11); FBasic (BOp (SNum1 (U_eqz W32))); FBrIf 0; FBlock false [] []; FBlock false [] []; FBasic (BGet 9); FBasic (BGet 9); FBasic (BOp (SLoad LI32 28%Z)); FBasic (BTee 8); FBasic (BConst (VI32 2%Z)); FBasic (BOp (SNum2 (B_int W32 Ishl))); FBasic (BConst (VI32 1057616%Z)); FBasic (BOp (SNum2 (B_int W32 Iadd))); FBasic (BTee 0); FBasic (BOp (SLoad LI32 0%Z)); FBasic (BOp (SNum2 (B_irel W32 Ine))); FBrIf 0; FBasic (BGet 0); FBasic (BGet 4); FBasic (BOp (SStore SI32 0%Z)); FBasic (BGet 4); FBrIf 1; FBasic (BConst (VI32 0%Z)); FBasic (BGet 10); FBasic (BConst (VI32 (-2)%Z)); FBasic (BGet 8); FBasic (BOp (SNum2 (B_int W32 Irotl))); FBasic (BOp (SNum2 (B_int W32 Iand))); FBasic (BTee 10); FBasic (BOp (SStore SI32 1057316%Z)); FBr 2; FEnd; FBasic (BGet 11); FBasic (BConst (VI32 16%Z)); FBasic (BConst (VI32 20%Z)); FBasic (BGet 11); FBasic (BOp (SLoad LI32 16%Z)); FBasic (BGet 9); FBasic (BOp (SNum2 (B_irel W32 Ieq))); FBasic (BSelect None); FBasic (BOp (SNum2 (B_int W32 Iadd))); FBasic (BGet 4); FBasic (BOp (SStore SI32 0%Z)); FBasic (BGet 4); FBasic (BOp (SNum1 (U_eqz W32))); FBrIf 1; FEnd; FBasic (BGet 4); FBasic (BGet 11); FBasic (BOp (SStore SI32 24%Z)); FBlock false [] []; FBasic (BGet 9); FBasic (BOp (SLoad LI32 16%Z)); FBasic (BTee 0); FBasic (BOp (SNum1 (U_eqz W32))); FBrIf 0; FBasic (BGet 4); FBasic (BGet 0); FBasic (BOp (SStore SI32 16%Z)); FBasic (BGet 0); FBasic (BGet 4); FBasic (BOp (SStore SI32 24%Z)); FEnd; FBasic (BGet 9); FBasic (BOp (SLoad LI32 20%Z)); FBasic (BTee 0); FBasic (BOp (SNum1 (U_eqz W32))); FBrIf 0; FBasic (BGet 4); FBasic (BGet 0); FBasic (BOp (SStore SI32 20%Z)); FBasic (BGet 0); FBasic (BGet 4); FBasic (BOp (SStore SI32 24%Z)); FEnd; FBlock false [] []; FBlock false [] []; FBasic (BGet 3); FBasic (BConst (VI32 15%Z)); FBasic (BOp (SNum2 (B_irel W32 Igt_u))); FBrIf 0; FBasic (BGet 9); FBasic (BGet 3); FBasic (BGet 5); FBasic (BOp (SNum2 (B_int W32 Ior))); FBasic (BTee 4); FBasic (BConst (VI32 3%Z)); FBasic (BOp (SNum2 (B_int W32 Ior))); FBasic (BOp (SStore SI32 4%Z)); FBasic (BGet 9); FBasic (BGet 4); FBasic (BOp (SNum2 (B_int W32 Iadd))); FBasic (BTee 4); FBasic (BGet 4); FBasic (BOp (SLoad LI32 4%Z)); FBasic (BConst (VI32 1%Z)); FBasic (BOp (SNum2 (B_int W32 Ior))); FBasic (BOp (SStore SI32 4%Z)); FBr 1; FEnd; FBasic (BGet 9); FBasic (BGet 5); FBasic (BOp (SNum2 (B_int W32 Iadd))); FBasic (BTee 8); FBasic (BGet 3); FBasic (BConst (VI32 1%Z)); FBasic (BOp (SNum2 (B_int W32 Ior))); FBasic (BOp (SStore SI32 4%Z)); FBasic (BGet 9); FBasic (BGet 5); FBasic (BConst (VI32 3%Z)); FBasic (BOp (SNum2 (B_int W32 Ior))); FBasic (BOp (SStore SI32 4%Z)); FBasic (BGet 8); FBasic (BGet 3); FBasic (BOp (SNum2 (B_int W32 Iadd))); FBasic (BGet 3); FBasic (BOp (SStore SI32 0%Z)); FBlock false [] []; FBasic (BGet 3); FBasic (BConst (VI32 255%Z)); FBasic (BOp (SNum2 (B_irel W32 Igt_u))); FBrIf 0; FBasic (BGet 3); FBasic (BConst (VI32 (-8)%Z)); FBasic (BOp (SNum2 (B_int W32 Iand))); FBasic (BConst (VI32 1057352%Z)); FBasic (BOp (SNum2 (B_int W32 Iadd))); FBasic (BSet 4); FBlock false [] []; FBlock false [] []; FBasic (BConst (VI32 0%Z)); FBasic (BOp (SLoad LI32 1057312%Z)); FBasic (BTee 5); FBasic (BConst (VI32 1%Z)); FBasic (BGet 3); FBasic (BConst (VI32 3%Z)); FBasic (BOp (SNum2 (B_int W32 Ishr_u))); FBasic (BOp (SNum2 (B_int W32 Ishl))); FBasic (BTee 3); FBasic (BOp (SNum2 (B_int W32 Iand))); FBrIf 0; FBasic (BConst (VI32 0%Z)); FBasic (BGet 5); FBasic (BGet 3); FBasic (BOp (SNum2 (B_int W32 Ior))); FBasic (BOp (SStore SI32 1057312%Z)); FBasic (BGet 4); FBasic (BSet 3); FBr 1; FEnd; FBasic (BGet 4); FBasic (BOp (SLoad LI32 8%Z)); FBasic (BSet 3); FEnd; FBasic (BGet 3); FBasic (BGet 8); FBasic (BOp (SStore SI32 12%Z)); FBasic (BGet 4); FBasic (BGet 8); FBasic (BOp (SStore SI32 8%Z)); FBasic (BGet 8); FBasic (BGet 4); FBasic (BOp (SStore SI32 12%Z)); FBasic (BGet 8); FBasic (BGet 3); FBasic (BOp (SStore SI32 8%Z)); FBr 1; FEnd; FBasic (BConst (VI32 31%Z)); FBasic (BSet 4); FBlock false [] []; FBasic (BGet 3); FBasic (BConst (VI32 16777215%Z)); FBasic (BOp (SNum2 (B_irel W32 Igt_u))); FBrIf 0; FBasic (BGet 3); FBasic (BConst (VI32 38%Z)); FBasic (BGet 3); FBasic (BConst (VI32 8%Z)); FBasic (BOp (SNum2 (B_int W32 Ishr_u))); FBasic (BOp (SNum1 (U_int W32 Iclz))); FBasic (BTee 4); FBasic (BOp (SNum2 (B_int W32 Isub))); FBasic (BOp (SNum2 (B_int W32 Ishr_u))); FBasic (BConst (VI32 1%Z)); FBasic (BOp (SNum2 (B_int W32 Iand))); FBasic (BGet 4); FBasic (BConst (VI32 1%Z)); FBasic (BOp (SNum2 (B_int W32 Ishl))); FBasic (BOp (SNum2 (B_int W32 Isub))); FBasic (BConst (VI32 62%Z)); FBasic (BOp (SNum2 (B_int W32 Iadd))); FBasic (BSet 4); FEnd; FBasic (BGet 8); FBasic (BGet 4); FBasic (BOp (SStore SI32 28%Z)); FBasic (BGet 8); FBasic (BConst (VI64 0%Z)); FBasic (BOp (SStore SI64 16%Z)); FBasic (BGet 4); FBasic (BConst (VI32 2%Z)); FBasic (BOp (SNum2 (B_int W32 Ishl))); FBasic (BConst (VI32 1057616%Z)); FBasic (BOp (SNum2 (B_int W32 Iadd))); FBasic (BSet 5); FBlock false [] []; FBasic (BGet 10); FBasic (BConst (VI32 1%Z)); FBasic (BGet 4); FBasic (BOp (SNum2 (B_int W32 Ishl))); FBasic (BTee 0); FBasic (BOp (SNum2 (B_int W32 Iand))); FBrIf 0; FBasic (BGet 5); FBasic (BGet 8); FBasic (BOp (SStore SI32 0%Z)); FBasic (BConst (VI32 0%Z)); FBasic (BGet 10); FBasic (BGet 0); FBasic (BOp (SNum2 (B_int W32 Ior))); FBasic (BOp (SStore SI32 1057316%Z)); FBasic (BGet 8); FBasic (BGet 5); FBasic (BOp (SStore SI32 24%Z)); FBasic (BGet 8); FBasic (BGet 8); FBasic (BOp (SStore SI32 8%Z)); FBasic (BGet 8); FBasic (BGet 8); FBasic (BOp (SStore SI32 12%Z)); FBr 1; FEnd; FBasic (BGet 3); FBasic (BConst (VI32 0%Z)); FBasic (BConst (VI32 25%Z)); FBasic (BGet 4); FBasic (BConst (VI32 1%Z)); FBasic (BOp (SNum2 (B_int W32 Ishr_u))); FBasic (BOp (SNum2 (B_int W32 Isub))); FBasic (BGet 4); FBasic (BConst (VI32 31%Z)); FBasic (BOp (SNum2 (B_irel W32 Ieq))); FBasic (BSelect None); FBasic (BOp (SNum2 (B_int W32 Ishl))); FBasic (BSet 4); FBasic (BGet 5); FBasic (BOp (SLoad LI32 0%Z)); FBasic (BSet 0); FBlock false [] []; FBlock true [] []; FBasic (BGet 0); FBasic (BTee 5); FBasic (BOp (SLoad LI32 4%Z)); FBasic (BConst (VI32 (-8)%Z)); FBasic (BOp (SNum2 (B_int W32 Iand))); FBasic (BGet 3); FBasic (BOp (SNum2 (B_irel W32 Ieq))); FBrIf 1; FBasic (BGet 4); FBasic (BConst (VI32 29%Z)); FBasic (BOp (SNum2 (B_int W32 Ishr_u))); FBasic (BSet 0); FBasic (BGet 4); FBasic (BConst (VI32 1%Z)); FBasic (BOp (SNum2 (B_int W32 Ishl))); FBasic (BSet 4); FBasic (BGet 5); FBasic (BGet 0); FBasic (BConst (VI32 4%Z)); FBasic (BOp (SNum2 (B_int W32 Iand))); FBasic (BOp (SNum2 (B_int W32 Iadd))); FBasic (BConst (VI32 16%Z)); FBasic (BOp (SNum2 (B_int W32 Iadd))); FBasic (BTee 6); FBasic (BOp (SLoad LI32 0%Z)); FBasic (BTee 0); FBrIf 0; FEnd; FBasic (BGet 6); FBasic (BGet 8); FBasic (BOp (SStore SI32 0%Z)); FBasic (BGet 8); FBasic (BGet 5); FBasic (BOp (SStore SI32 24%Z)); FBasic (BGet 8); FBasic (BGet 8); FBasic (BOp (SStore SI32 12%Z)); FBasic (BGet 8); FBasic (BGet 8); FBasic (BOp (SStore SI32 8%Z)); FBr 1; FEnd; FBasic (BGet 5); FBasic (BOp (SLoad LI32 8%Z)); FBasic (BTee 4); FBasic (BGet 8); FBasic (BOp (SStore SI32 12%Z)); FBasic (BGet 5); FBasic (BGet 8); FBasic (BOp (SStore SI32 8%Z)); FBasic (BGet 8); FBasic (BConst (VI32 0%Z)); FBasic (BOp (SStore SI32 24%Z)); FBasic (BGet 8); FBasic (BGet 5); FBasic (BOp (SStore SI32 12%Z)); FBasic (BGet 8); FBasic (BGet 4); FBasic (BOp (SStore SI32 8%Z)); FEnd; FBasic (BGet 9); FBasic (BConst (VI32 8%Z)); FBasic (BOp (SNum2 (B_int W32 Iadd))); FBasic (BSet 4); FBr 1; FEnd; FBlock false [] []; FBasic (BGet 2); FBasic (BOp (SNum1 (U_eqz W32))); FBrIf 0; FBlock false [] []; FBlock false [] []; FBasic (BGet 8); FBasic (BGet 8); FBasic (BOp (SLoad LI32 28%Z)); FBasic (BTee 9); FBasic (BConst (VI32 2%Z)); FBasic (BOp (SNum2 (B_int W32 Ishl))); FBasic (BConst (VI32 1057616%Z)); FBasic (BOp (SNum2 (B_int W32 Iadd))); FBasic (BTee 0); FBasic (BOp (SLoad LI32 0%Z)); FBasic (BOp (SNum2 (B_irel W32 Ine))); FBrIf 0; FBasic (BGet 0); FBasic (BGet 4); FBasic (BOp (SStore SI32 0%Z)); FBasic (BGet 4); FBrIf 1; FBasic (BConst (VI32 0%Z)); FBasic (BGet 10); FBasic (BConst (VI32 (-2)%Z)); FBasic (BGet 9); FBasic (BOp (SNum2 (B_int W32 Irotl))); FBasic (BOp (SNum2 (B_int W32 Iand))); FBasic (BOp (SStore SI32 1057316%Z)); FBr 2; FEnd; FBasic (BGet 2); FBasic (BConst (VI32 16%Z)); FBasic (BConst (VI32 20%Z)); FBasic (BGet 2); FBasic (BOp (SLoad LI32 16%Z)); FBasic (BGet 8); FBasic (BOp (SNum2 (B_irel W32 Ieq))); FBasic (BSelect None); FBasic (BOp (SNum2 (B_int W32 Iadd))); FBasic (BGet 4); FBasic (BOp (SStore SI32 0%Z)); FBasic (BGet 4); FBasic (BOp (SNum1 (U_eqz W32))); FBrIf 1; FEnd; FBasic (BGet 4); FBasic (BGet 2); FBasic (BOp (SStore SI32 24%Z)); FBlock false [] []; FBasic (BGet 8); FBasic (BOp (SLoad LI32 16%Z)); FBasic (BTee 0); FBasic (BOp (SNum1 (U_eqz W32))); FBrIf 0; FBasic (BGet 4); FBasic (BGet 0); FBasic (BOp (SStore SI32 16%Z)); FBasic (BGet 0); FBasic (BGet 4); FBasic (BOp (SStore SI32 24%Z)); FEnd; FBasic (BGet 8); FBasic (BOp (SLoad LI32 20%Z)); FBasic (BTee 0); FBasic (BOp (SNum1 (U_eqz W32))); FBrIf 0; FBasic (BGet 4); FBasic (BGet 0); FBasic (BOp (SStore SI32 20%Z)); FBasic (BGet 0); FBasic (BGet 4); FBasic (BOp (SStore SI32 24%Z)); FEnd; FBlock false [] []; FBlock false [] []; FBasic (BGet 3); FBasic (BConst (VI32 15%Z)); FBasic (BOp (SNum2 (B_irel W32 Igt_u))); FBrIf 0; FBasic (BGet 8); FBasic (BGet 3); FBasic (BGet 5); FBasic (BOp (SNum2 (B_int W32 Ior))); FBasic (BTee 4); FBasic (BConst (VI32 3%Z)); FBasic (BOp (SNum2 (B_int W32 Ior))); FBasic (BOp (SStore SI32 4%Z)); FBasic (BGet 8); FBasic (BGet 4); FBasic (BOp (SNum2 (B_int W32 Iadd))); FBasic (BTee 4); FBasic (BGet 4); FBasic (BOp (SLoad LI32 4%Z)); FBasic (BConst (VI32 1%Z)); FBasic (BOp (SNum2 (B_int W32 Ior))); FBasic (BOp (SStore SI32 4%Z)); FBr 1; FEnd; FBasic (BGet 8); FBasic (BGet 5); FBasic (BOp (SNum2 (B_int W32 Iadd))); FBasic (BTee 0); FBasic (BGet 3); FBasic (BConst (VI32 1%Z)); FBasic (BOp (SNum2 (B_int W32 Ior))); FBasic (BOp (SStore SI32 4%Z)); FBasic (BGet 8); FBasic (BGet 5); FBasic (BConst (VI32 3%Z)); FBasic (BOp (SNum2 (B_int W32 Ior))); FBasic (BOp (SStore SI32 4%Z)); FBasic (BGet 0); FBasic (BGet 3); FBasic (BOp (SNum2 (B_int W32 Iadd))); FBasic (BGet 3); FBasic (BOp (SStore SI32 0%Z)); FBlock false [] []; FBasic (BGet 7); FBasic (BOp (SNum1 (U_eqz W32))); FBrIf 0; FBasic (BGet 7); FBasic (BConst (VI32 (-8)%Z)); FBasic (BOp (SNum2 (B_int W32 Iand))); FBasic (BConst (VI32 1057352%Z)); FBasic (BOp (SNum2 (B_int W32 Iadd))); FBasic (BSet 5); FBasic (BConst (VI32 0%Z)); FBasic (BOp (SLoad LI32 1057332%Z)); FBasic (BSet 4); FBlock false [] []; FBlock false [] []; FBasic (BConst (VI32 1%Z)); FBasic (BGet 7); FBasic (BConst (VI32 3%Z)); FBasic (BOp (SNum2 (B_int W32 Ishr_u))); FBasic (BOp (SNum2 (B_int W32 Ishl))); FBasic (BTee 9); FBasic (BGet 6); FBasic (BOp (SNum2 (B_int W32 Iand))); FBrIf 0; FBasic (BConst (VI32 0%Z)); FBasic (BGet 9); FBasic (BGet 6); FBasic (BOp (SNum2 (B_int W32 Ior))); FBasic (BOp (SStore SI32 1057312%Z)); FBasic (BGet 5); FBasic (BSet 9); FBr 1; FEnd; FBasic (BGet 5); FBasic (BOp (SLoad LI32 8%Z)); FBasic (BSet 9); FEnd; FBasic (BGet 9); FBasic (BGet 4); FBasic (BOp (SStore SI32 12%Z)); FBasic (BGet 5); FBasic (BGet 4); FBasic (BOp (SStore SI32 8%Z)); FBasic (BGet 4); FBasic (BGet 5); FBasic (BOp (SStore SI32 12%Z)); FBasic (BGet 4); FBasic (BGet 9); FBasic (BOp (SStore SI32 8%Z)); FEnd; FBasic (BConst (VI32 0%Z)); FBasic (BGet 0); FBasic (BOp (SStore SI32 1057332%Z)); FBasic (BConst (VI32 0%Z)); FBasic (BGet 3); FBasic (BOp (SStore SI32 1057320%Z)); FEnd; FBasic (BGet 8); FBasic (BConst (VI32 8%Z)); FBasic (BOp (SNum2 (B_int W32 Iadd))); FBasic (BSet 4); FEnd; FBasic (BGet 1); FBasic (BConst (VI32 16%Z)); FBasic (BOp (SNum2 (B_int W32 Iadd))); FBasic (BOp (SGlobalSet TI32 0)); FBasic (BGet 4); FEnd]; b_bad := false |};
    PCode {| b_locals := [TI32; TI32; TI32; TI32; TI32; TI32; TI32]; b_badlocals := false; b_ops := [FBasic (BGet 0); FBasic (BConst (VI32 (-8)%Z)); FBasic (BGet 0); FBasic (BOp (SNum2 (B_int W32 Isub))); FBasic (BConst (VI32 15%Z)); FBasic (BOp (SNum2 (B_int W32 Iand))); FBasic (BOp (SNum2 (B_int W32 Iadd))); FBasic (BTee 3); FBasic (BGet 2); FBasic (BConst (VI32 3%Z)); FBasic (BOp (SNum2 (B_int W32 Ior))); FBasic (BOp (SStore SI32 4%Z)); FBasic (BGet 1); FBasic (BConst (VI32 (-8)%Z)); FBasic (BGet 1); FBasic (BOp (SNum2 (B_int W32 Isub))); FBasic (BConst (VI32 15%Z)); FBasic (BOp (SNum2 (B_int W32 Iand))); FBasic (BOp (SNum2 (B_int W32 Iadd))); FBasic (BTee 4); FBasic (BGet 3); FBasic (BGet 2); FBasic (BOp (SNum2 (B_int W32 Iadd))); FBasic (BTee 5); FBasic (BOp (SNum2 (B_int W32 Isub))); FBasic (BSet 0); FBlock false [] []; FBlock false [] []; FBasic (BGet 4); FBasic (BConst (VI32 0%Z)); FBasic (BOp (SLoad LI32 1057336%Z)); FBasic (BOp (SNum2 (B_irel W32 Ine))); FBrIf 0; FBasic (BConst (VI32 0%Z)); FBasic (BGet 5); FBasic (BOp (SStore SI32 1057336%Z)); FBasic (BConst (VI32 0%Z)); FBasic (BConst (VI32 0%Z)); FBasic (BOp (SLoad LI32 1057324%Z)); FBasic (BGet 0); FBasic (BOp (SNum2 (B_int W32 Iadd))); FBasic (BTee 2); FBasic (BOp (SStore SI32 1057324%Z)); FBasic (BGet 5); FBasic (BGet 2); FBasic (BConst (VI32 1%Z)); FBasic (BOp (SNum2 (B_int W32 Ior))); FBasic (BOp (SStore SI32 4%Z)); FBr 1; FEnd; FBlock false [] []; FBasic (BGet 4); FBasic (BConst (VI32 0%Z)); FBasic (BOp (SLoad LI32 1057332%Z)); FBasic (BOp (SNum2 (B_irel W32 Ine))); FBrIf 0; FBasic (BConst (VI32 0%Z)); FBasic (BGet 5); FBasic (BOp (SStore SI32 1057332%Z)); FBasic (BConst (VI32 0%Z)); FBasic (BConst (VI32 0%Z)); FBasic (BOp (SLoad LI32 1057320%Z)); FBasic (BGet 0); FBasic (BOp (SNum2 (B_int W32 Iadd))); FBasic (BTee 2); FBasic (BOp (SStore SI32 1057320%Z)); FBasic (BGet 5); FBasic (BGet 2); FBasic (BConst (VI32 1%Z)); FBasic (BOp (SNum2 (B_int W32 Ior))); FBasic (BOp (SStore SI32 4%Z)); FBasic (BGet 5); FBasic (BGet 2); FBasic (BOp (SNum2 (B_int W32 Iadd))); FBasic (BGet 2); FBasic (BOp (SStore SI32 0%Z)); FBr 1; FEnd; FBlock false [] []; FBasic (BGet 4); FBasic (BOp (SLoad LI32 4%Z)); FBasic (BTee 1); FBasic (BConst (VI32 3%Z)); FBasic (BOp (SNum2 (B_int W32 Iand))); FBasic (BConst (VI32 1%Z)); FBasic (BOp (SNum2 (B_irel W32 Ine))); FBrIf 0; FBasic (BGet 1); FBasic (BConst (VI32 (-8)%Z)); FBasic (BOp (SNum2 (B_int W32 Iand))); FBasic (BSet 6); FBasic (BGet 4); FBasic (BOp (SLoad LI32 12%Z)); FBasic (BSet 2); FBlock false [] []; FBlock false [] []; FBasic (BGet 1); FBasic (BConst (VI32 255%Z)); FBasic (BOp (SNum2 (B_irel W32 Igt_u))); FBrIf 0; FBlock false [] []; FBasic (BGet 2); FBasic (BGet 4); FBasic (BOp (SLoad LI32 8%Z)); FBasic (BTee 7); FBasic (BOp (SNum2 (B_irel W32 Ine))); FBrIf 0; FBasic (BConst (VI32 0%Z)); FBasic (BConst (VI32 0%Z)); FBasic (BOp (SLoad LI32 1057312%Z)); FBasic (BConst (VI32 (-2)%Z)); FBasic (BGet 1); FBasic (BConst (VI32 3%Z)); FBasic (BOp (SNum2 (B_int W32 Ishr_u))); FBasic (BOp (SNum2 (B_int W32 Irotl))); FBasic (BOp (SNum2 (B_int W32 Iand))); FBasic (BOp (SStore SI32 1057312%Z)); FBr 2; FEnd; FBasic (BGet 2); FBasic (BGet 7); FBasic (BOp (SStore SI32 8%Z)); FBasic (BGet 7); FBasic (BGet 2); FBasic (BOp (SStore SI32 12%Z)); FBr 1; FEnd; FBasic (BGet 4); FBasic (BOp (SLoad LI32 24%Z)); FBasic (BSet 8); FBlock false [] []; FBlock false [] []; FBasic (BGet 2); FBasic (BGet 4); FBasic (BOp (SNum2 (B_irel W32 Ieq))); FBrIf 0; FBasic (BGet 4); FBasic (BOp (SLoad LI32 8%Z)); FBasic (BTee 1); FBasic (BGet 2); FBasic (BOp (SStore SI32 12%Z)); FBasic (BGet 2); FBasic (BGet 1); FBasic (BOp (SStore SI32 8%Z)); FBr 1; FEnd; FBlock false [] []; FBlock false [] []; FBlock false [] []; FBasic (BGet 4); FBasic (BOp (SLoad LI32 20%Z)); FBasic (BTee 1); FBasic (BOp (SNum1 (U_eqz W32))); FBrIf 0; FBasic (BGet 4); FBasic (BConst (VI32 20%Z)); FBasic (BOp (SNum2 (B_int W32 Iadd))); FBasic (BSet 7); FBr 1; FEnd; FBasic (BGet 4); FBasic (BOp (SLoad LI32 16%Z)); FBasic (BTee 1); FBasic (BOp (SNum1 (U_eqz W32))); FBrIf 1; FBasic (BGet 4); FBasic (BConst (VI32 16%Z)); FBasic (BOp (SNum2 (B_int W32 Iadd))); FBasic (BSet 7); FEnd; FBlock true [] []; FBasic (BGet 7); FBasic (BSet 9); FBasic (BGet 1); FBasic (BTee 2); FBasic (BConst (VI32 20%Z)); FBasic (BOp (SNum2 (B_int W32 Iadd))); FBasic (BSet 7); FBasic (BGet 2); FBasic (BOp (SLoad LI32 20%Z)); FBasic (BTee 1); FBrIf 0; FBasic (BGet 2); FBasic (BConst (VI32 16%Z)); FBasic (BOp (SNum2 (B_int W32 Iadd))); FBasic (BSet 7); FBasic (BGet 2); FBasic (BOp (SLoad LI32 16%Z)); FBasic (BTee 1); FBrIf 0; FEnd; FBasic (BGet 9); FBasic (BConst (VI32 0%Z)); FBasic (BOp (SStore SI32 0%Z)); FBr 1; FEnd; FBasic (BConst (VI32 0%Z)); FBasic (BSet 2); FEnd; FBasic (BGet 8); FBasic (BOp (SNum1 (U_eqz W32))); FBrIf 0; FBlock false [] []; FBlock false [] []; FBasic (BGet 4); FBasic (BGet 4); FBasic (BOp (SLoad LI32 28%Z)); FBasic (BTee 7); FBasic (BConst (VI32 2%Z)); FBasic (BOp (SNum2 (B_int W32 Ishl))); FBasic (BConst (VI32 1057616%Z)); FBasic (BOp (SNum2 (B_int W32 Iadd))); FBasic (BTee 1); FBasic (BOp (SLoad LI32 0%Z)); FBasic (BOp (SNum2 (B_irel W32 Ine))); FBrIf 0; FBasic (BGet 1); FBasic (BGet 2); FBasic (BOp (SStore SI32 0%Z)); FBasic (BGet 2); FBrIf 1; FBasic (BConst (VI32 0%Z)); FBasic (BConst (VI32 0%Z)); FBasic (BOp (SLoad LI32 1057316%Z)); FBasic (BConst (VI32 (-2)%Z)); FBasic (BGet 7); FBasic (BOp (SNum2 (B_int W32 Irotl))); FBasic (BOp (SNum2 (B_int W32 Iand))); FBasic (BOp (SStore SI32 1057316%Z)); FBr 2; FEnd; FBasic (BGet 8); FBasic (BConst (VI32 16%Z)); FBasic (BConst (VI32 20%Z)); FBasic (BGet 8); FBasic (BOp (SLoad LI32 16%Z)); FBasic (BGet 4); FBasic (BOp (SNum2 (B_irel W32 Ieq))); FBasic (BSelect None); FBasic (BOp (SNum2 (B_int W32 Iadd))); FBasic (BGet 2); FBasic (BOp (SStore SI32 0%Z)); FBasic (BGet 2); FBasic (BOp (SNum1 (U_eqz W32))); FBrIf 1; FEnd; FBasic (BGet 2); FBasic (BGet 8); FBasic (BOp (SStore SI32 24%Z)); FBlock false [] []; FBasic (BGet 4); FBasic (BOp (SLoad LI32 16%Z)); FBasic (BTee 1); FBasic (BOp (SNum1 (U_eqz W32))); FBrIf 0; FBasic (BGet 2); FBasic (BGet 1); FBasic (BOp (SStore SI32 16%Z)); FBasic (BGet 1); FBasic (BGet 2); FBasic (BOp (SStore SI32 24%Z)); FEnd; FBasic (BGet 4); FBasic (BOp (SLoad LI32 20%Z)); FBasic (BTee 1); FBasic (BOp (SNum1 (U_eqz W32))); FBrIf 0; FBasic (BGet 2); FBasic (BGet 1); FBasic (BOp (SStore SI32 20%Z)); FBasic (BGet 1); FBasic (BGet 2); FBasic (BOp (SStore SI32 24%Z)); FEnd; FBasic (BGet 6); FBasic (BGet 0); FBasic (BOp (SNum2 (B_int W32 Iadd))); FBasic (BSet 0); FBasic (BGet 4); FBasic (BGet 6); FBasic (BOp (SNum2 (B_int W32 Iadd))); FBasic (BTee 4); FBasic (BOp (SLoad LI32 4%Z)); FBasic (BSet 1); FEnd; FBasic (BGet 4); FBasic (BGet 1); FBasic (BConst (VI32 (-2)%Z)); FBasic (BOp (SNum2 (B_int W32 Iand))); FBasic (BOp (SStore SI32 4%Z)); FBasic (BGet 5); FBasic (BGet 0); FBasic (BOp (SNum2 (B_int W32 Iadd))); FBasic (BGet 0); FBasic (BOp (SStore SI32 0%Z)); FBasic (BGet 5); FBasic (BGet 0); FBasic (BConst (VI32 1%Z)); FBasic (BOp (SNum2 (B_int W32 Ior))); FBasic (BOp (SStore SI32 4%Z)); FBlock false [] []; FBasic (BGet 0); FBasic (BConst (VI32 255%Z)); FBasic (BOp (SNum2 (B_irel W32 Igt_u))); FBrIf 0; FBasic (BGet 0); FBasic (BConst (VI32 (-8)%Z)); FBasic (BOp (SNum2 (B_int W32 Iand))); FBasic (BConst (VI32 1057352%Z)); FBasic (BOp (SNum2 (B_int W32 Iadd))); FBasic (BSet 2); FBlock false [] []; FBlock false [] []; FBasic (BConst (VI32 0%Z)); FBasic (BOp (SLoad LI32 1057312%Z)); FBasic (BTee 1); FBasic (BConst (VI32 1%Z)); FBasic (BGet 0); FBasic (BConst (VI32 3%Z)); FBasic (BOp (SNum2 (B_int W32 Ishr_u))); FBasic (BOp (SNum2 (B_int W32 Ishl))); FBasic (BTee 0); FBasic (BOp (SNum2 (B_int W32 Iand))); FBrIf 0; FBasic (BConst (VI32 0%Z)); FBasic (BGet 1); FBasic (BGet 0); FBasic (BOp (SNum2 (B_int W32 Ior))); FBasic (BOp (SStore SI32 1057312%Z)); FBasic (BGet 2); FBasic (BSet 0); FBr 1; FEnd; FBasic (BGet 2); FBasic (BOp (SLoad LI32 8%Z)); FBasic (BSet 0); FEnd; FBasic (BGet 0); FBasic (BGet 5); FBasic (BOp (SStore SI32 12%Z)); FBasic (BGet 2); FBasic (BGet 5); FBasic (BOp (SStore SI32 8%Z)); FBasic (BGet 5); FBasic (BGet 2); FBasic (BOp (SStore SI32 12%Z)); FBasic (BGet 5); FBasic (BGet 0); FBasic (BOp (SStore SI32 8%Z)); FBr 1; FEnd; FBasic (BConst (VI32 31%Z)); FBasic (BSet 2); FBlock false [] []; FBasic (BGet 0); FBasic (BConst (VI32 16777215%Z)); FBasic (BOp (SNum2 (B_irel W32 Igt_u))); FBrIf 0; FBasic (BGet 0); FBasic (BConst (VI32 38%Z)); FBasic (BGet 0); FBasic (BConst (VI32 8%Z)); FBasic (BOp (SNum2 (B_int W32 Ishr_u))); FBasic (BOp (SNum1 (U_int W32 Iclz))); FBasic (BTee 2); FBasic (BOp (SNum2 (B_int W32 Isub))); FBasic (BOp (SNum2 (B_int W32 Ishr_u))); FBasic (BConst (VI32 1%Z)); FBasic (BOp (SNum2 (B_int W32 Iand))); FBasic (BGet 2); FBasic (BConst (VI32 1%Z)); FBasic (BOp (SNum2 (B_int W32 Ishl))); FBasic (BOp (SNum2 (B_int W32 Isub))); FBasic (BConst (VI32 62%Z)); FBasic (BOp (SNum2 (B_int W32 Iadd))); FBasic (BSet 2); FEnd; FBasic (BGet 5); FBasic (BGet 2); FBasic (BOp (SStore SI32 28%Z)); FBasic (BGet 5); FBasic (BConst (VI64 0%Z)); FBasic (BOp (SStore SI64 16%Z)); FBasic (BGet 2); FBasic (BConst (VI32 2%Z)); FBasic (BOp (SNum2 (B_int W32 Ishl))); FBasic (BConst (VI32 1057616%Z)); FBasic (BOp (SNum2 (B_int W32 Iadd))); FBasic (BSet 1); FBlock false [] []; FBasic (BConst (VI32 0%Z)); FBasic (BOp (SLoad LI32 1057316%Z)); FBasic (BTee 7); FBasic (BConst (VI32 1%Z)); FBasic (BGet 2); FBasic (BOp (SNum2 (B_int W32 Ishl))); FBasic (BTee 4); FBasic (BOp (SNum2 (B_int W32 Iand))); FBrIf 0; FBasic (BGet 1); FBasic (BGet 5); FBasic (BOp (SStore SI32 0%Z)); FBasic (BConst (VI32 0%Z)); FBasic (BGet 7); FBasic (BGet 4); FBasic (BOp (SNum2 (B_int W32 Ior))); FBasic (BOp (SStore SI32 1057316%Z)); FBasic (BGet 5); FBasic (BGet 1); FBasic (BOp (SStore SI32 24%Z)); FBasic (BGet 5); FBasic (BGet 5); FBasic (BOp (SStore SI32 8%Z)); FBasic (BGet 5); FBasic (BGet 5); FBasic (BOp (SStore SI32 12%Z)); FBr 1; FEnd; FBasic (BGet 0); FBasic (BConst (VI32 0%Z)); FBasic (BConst (VI32 25%Z)); FBasic (BGet 2); FBasic (BConst (VI32 1%Z)); FBasic (BOp (SNum2 (B_int W32 Ishr_u))); FBasic (BOp (SNum2 (B_int W32 Isub))); FBasic (BGet 2); FBasic (BConst (VI32 31%Z)); FBasic (BOp (SNum2 (B_irel W32 Ieq))); FBasic (BSelect None); FBasic (BOp (SNum2 (B_int W32 Ishl))); FBasic (BSet 2); FBasic (BGet 1); FBasic (BOp (SLoad LI32 0%Z)); FBasic (BSet 7); FBlock false [] []; FBlock true [] []; FBasic (BGet 7); FBasic (BTee 1); FBasic (BOp (SLoad LI32 4%Z)); FBasic (BConst (VI32 (-8)%Z)); FBasic (BOp (SNum2 (B_int W32 Iand))); FBasic (BGet 0); FBasic (BOp (SNum2 (B_irel W32 Ieq))); FBrIf 1; FBasic (BGet 2); FBasic (BConst (VI32 29%Z)); FBasic (BOp (SNum2 (B_int W32 Ishr_u))); FBasic (BSet 7); FBasic (BGet 2); FBasic (BConst (VI32 1%Z)); FBasic (BOp (SNum2 (B_int W32 Ishl))); FBasic (BSet 2); FBasic (BGet 1); FBasic (BGet 7); FBasic (BConst (VI32 4%Z)); FBasic (BOp (SNum2 (B_int W32 Iand))); FBasic (BOp (SNum2 (B_int W32 Iadd))); FBasic (BConst (VI32 16%Z)); FBasic (BOp (SNum2 (B_int W32 Iadd))); FBasic (BTee 4); FBasic (BOp (SLoad LI32 0%Z)); FBasic (BTee 7); FBrIf 0; FEnd; FBasic (BGet 4); FBasic (BGet 5); FBasic (BOp (SStore SI32 0%Z)); FBasic (BGet 5); FBasic (BGet 1); FBasic (BOp (SStore SI32 24%Z)); FBasic (BGet 5); FBasic (BGet 5); FBasic (BOp (SStore SI32 12%Z)); FBasic (BGet 5); FBasic (BGet 5); FBasic (BOp (SStore SI32 8%Z)); FBr 1; FEnd; FBasic (BGet 1); FBasic (BOp (SLoad LI32 8%Z)); FBasic (BTee 2); FBasic (BGet 5); FBasic (BOp (SStore SI32 12%Z)); FBasic (BGet 1); FBasic (BGet 5); FBasic (BOp (SStore SI32 8%Z)); FBasic (BGet 5); FBasic (BConst (VI32 0%Z)); FBasic (BOp (SStore SI32 24%Z)); FBasic (BGet 5); FBasic (BGet 1); FBasic (BOp (SStore SI32 12%Z)); FBasic (BGet 5); FBasic (BGet 2); FBasic (BOp (SStore SI32 8%Z)); FEnd; FBasic (BGet 3); FBasic (BConst (VI32 8%Z)); FBasic (BOp (SNum2 (B_int W32 Iadd))); FEnd]; b_bad := false |};
    PCode {| b_locals := []; b_badlocals := false; b_ops := [FBasic (BGet 0); FCall 116; FEnd]; b_bad := false |};
    PCode {| b_locals := [TI32; TI32; TI32; TI32; TI32; TI32; TI32]; b_badlocals := false; b_ops := [FBlock false [] []; FBasic (BGet 0); FBasic (BOp (SNum1 (U_eqz W32))); FBrIf 0; FBasic (BGet 0); FBasic (BConst (VI32 (-8)%Z)); FBasic (BOp (SNum2 (B_int W32 Iadd))); FBasic (BTee 1); FBasic (BGet 0); FBasic (BConst (VI32 (-4)%Z)); FBasic (BOp (SNum2 (B_int W32 Iadd))); FBasic (BOp (SLoad LI32 0%Z)); FBasic (BTee 2); FBasic (BConst (VI32 (-8)%Z)); FBasic (BOp (SNum2 (B_int W32 Iand))); FBasic (BTee 0); FBasic (BOp (SNum2 (B_int W32 Iadd))); FBasic (BSet 3); FBlock false [] []; FBasic (BGet 2); FBasic (BConst (VI32 1%Z)); FBasic (BOp (SNum2 (B_int W32 Iand))); FBrIf 0; FBasic (BGet 2); FBasic (BConst (VI32 2%Z)); FBasic (BOp (SNum2 (B_int W32 Iand))); FBasic (BOp (SNum1 (U_eqz W32))); FBrIf 1; FBasic (BGet 1); FBasic (BGet 1); FBasic (BOp (SLoad LI32 0%Z)); FBasic (BTee 4); FBasic (BOp (SNum2 (B_int W32 Isub))); FBasic (BTee 1); FBasic (BConst (VI32 0%Z)); FBasic (BOp (SLoad LI32 1057328%Z)); FBasic (BOp (SNum2 (B_irel W32 Ilt_u))); FBrIf 1; FBasic (BGet 4); FBasic (BGet 0); FBasic (BOp (SNum2 (B_int W32 Iadd))); FBasic (BSet 0); FBlock false [] []; FBlock false [] []; FBlock false [] []; FBlock false [] []; FBasic (BGet 1); FBasic (BConst (VI32 0%Z)); FBasic (BOp (SLoad LI32 1057332%Z)); FBasic (BOp (SNum2 (B_irel W32 Ieq))); FBrIf 0; FBasic (BGet 1); FBasic (BOp (SLoad LI32 12%Z)); FBasic (BSet 2); FBlock false [] []; FBasic (BGet 4); FBasic (BConst (VI32 255%Z)); FBasic (BOp (SNum2 (B_irel W32 Igt_u))); FBrIf 0; FBasic (BGet 2); FBasic (BGet 1); FBasic (BOp (SLoad LI32 8%Z)); FBasic (BTee 5); FBasic (BOp (SNum2 (B_irel W32 Ine))); FBrIf 2; FBasic (BConst (VI32 0%Z)); FBasic (BConst (VI32 0%Z)); FBasic (BOp (SLoad LI32 1057312%Z)); FBasic (BConst (VI32 (-2)%Z)); FBasic (BGet 4); FBasic (BConst (VI32 3%Z)); FBasic (BOp (SNum2 (B_int W32 Ishr_u))); FBasic (BOp (SNum2 (B_int W32 Irotl))); FBasic (BOp (SNum2 (B_int W32 Iand))); FBasic (BOp (SStore SI32 1057312%Z)); FBr 5; FEnd; FBasic (BGet 1); FBasic (BOp (SLoad LI32 24%Z)); FBasic (BSet 6); FBlock false [] []; FBasic (BGet 2); FBasic (BGet 1); FBasic (BOp (SNum2 (B_irel W32 Ieq))); FBrIf 0; FBasic (BGet 1); FBasic (BOp (SLoad LI32 8%Z)); FBasic (BTee 4); FBasic (BGet 2); FBasic (BOp (SStore SI32 12%Z)); FBasic (BGet 2); FBasic (BGet 4); FBasic (BOp (SStore SI32 8%Z)); FBr 4; FEnd; FBlock false [] []; FBlock false [] []; FBasic (BGet 1); FBasic (BOp (SLoad LI32 20%Z)); FBasic (BTee 4); FBasic (BOp (SNum1 (U_eqz W32))); FBrIf 0; FBasic (BGet 1); FBasic (BConst (VI32 20%Z)); FBasic (BOp (SNum2 (B_int W32 Iadd))); FBasic (BSet 5); FBr 1; FEnd; FBasic (BGet 1); FBasic (BOp (SLoad LI32 16%Z)); FBasic (BTee 4); FBasic (BOp (SNum1 (U_eqz W32))); FBrIf 3; FBasic (BGet 1); FBasic (BConst (VI32 16%Z)); FBasic (BOp (SNum2 (B_int W32 Iadd))); FBasic (BSet 5); FEnd; FBlock true [] []; FBasic (BGet 5); FBasic (BSet 7); FBasic (BGet 4); FBasic (BTee 2); FBasic (BConst (VI32 20%Z)); FBasic (BOp (SNum2 (B_int W32 Iadd))); FBasic (BSet 5); FBasic (BGet 2); FBasic (BOp (SLoad LI32 20%Z)); FBasic (BTee 4); FBrIf 0; FBasic (BGet 2); FBasic (BConst (VI32 16%Z)); FBasic (BOp (SNum2 (B_int W32 Iadd))); FBasic (BSet 5); FBasic (BGet 2); FBasic (BOp (SLoad LI32 16%Z)); FBasic (BTee 4); FBrIf 0; FEnd; FBasic (BGet 7); FBasic (BConst (VI32 0%Z)); FBasic (BOp (SStore SI32 0%Z)); FBr 3; FEnd; FBasic (BGet 3); FBasic (BOp (SLoad LI32 4%Z)); FBasic (BTee 2); FBasic (BConst (VI32 3%Z)); FBasic (BOp (SNum2 (B_int W32 Iand))); FBasic (BConst (VI32 3%Z)); FBasic (BOp (SNum2 (B_irel W32 Ine))); FBrIf 3; FBasic (BGet 3); FBasic (BGet 2); FBasic (BConst (VI32 (-2)%Z)); FBasic (BOp (SNum2 (B_int W32 Iand))); FBasic (BOp (SStore SI32 4%Z)); FBasic (BConst (VI32 0%Z)); FBasic (BGet 0); FBasic (BOp (SStore SI32 1057320%Z)); FBasic (BGet 3); FBasic (BGet 0); FBasic (BOp (SStore SI32 0%Z)); FBasic (BGet 1); FBasic (BGet 0); FBasic (BConst (VI32 1%Z)); FBasic (BOp (SNum2 (B_int W32 Ior))); FBasic (BOp (SStore SI32 4%Z)); FReturn; FEnd; FBasic (BGet 2); FBasic (BGet 5); FBasic (BOp (SStore SI32 8%Z)); FBasic (BGet 5); FBasic (BGet 2); FBasic (BOp (SStore SI32 12%Z)); FBr 2; FEnd; FBasic (BConst (VI32 0%Z)); FBasic (BSet 2); FEnd; FBasic (BGet 6); FBasic (BOp (SNum1 (U_eqz W32))); FBrIf 0; FBlock false [] []; FBlock false [] []; FBasic (BGet 1); FBasic (BGet 1); FBasic (BOp (SLoad LI32 28%Z)); FBasic (BTee 5); FBasic (BConst (VI32 2%Z)); FBasic (BOp (SNum2 (B_int W32 Ishl))); FBasic (BConst (VI32 1057616%Z)); FBasic (BOp (SNum2 (B_int W32 Iadd))); FBasic (BTee 4); FBasic (BOp (SLoad LI32 0%Z)); FBasic (BOp (SNum2 (B_irel W32 Ine))); FBrIf 0; FBasic (BGet 4); FBasic (BGet 2); FBasic (BOp (SStore SI32 0%Z)); FBasic (BGet 2); FBrIf 1; FBasic (BConst (VI32 0%Z)); FBasic (BConst (VI32 0%Z)); FBasic (BOp (SLoad LI32 1057316%Z)); FBasic (BConst (VI32 (-2)%Z)); FBasic (BGet 5); FBasic (BOp (SNum2 (B_int W32 Irotl))); FBasic (BOp (SNum2 (B_int W32 Iand))); FBasic (BOp (SStore SI32 1057316%Z)); FBr 2; FEnd; FBasic (BGet 6); FBasic (BConst (VI32 16%Z)); FBasic (BConst (VI32 20%Z)); FBasic (BGet 6); FBasic (BOp (SLoad LI32 16%Z)); FBasic (BGet 1); FBasic (BOp (SNum2 (B_irel W32 Ieq))); FBasic (BSelect None); FBasic (BOp (SNum2 (B_int W32 Iadd))); FBasic (BGet 2); FBasic (BOp (SStore SI32 0%Z)); FBasic (BGet 2); FBasic (BOp (SNum1 (U_eqz W32))); FBrIf 1; FEnd; FBasic (BGet 2); FBasic (BGet 6); FBasic (BOp (SStore SI32 24%Z)); FBlock false [] []; FBasic (BGet 1); FBasic (BOp (SLoad LI32 16%Z)); FBasic (BTee 4); FBasic (BOp (SNum1 (U_eqz W32))); FBrIf 0; FBasic (BGet 2); FBasic (BGet 4); FBasic (BOp (SStore SI32 16%Z)); FBasic (BGet 4); FBasic (BGet 2); FBasic (BOp (SStore SI32 24%Z)); FEnd; FBasic (BGet 1); FBasic (BOp (SLoad LI32 20%Z)); FBasic (BTee 4); FBasic (BOp (SNum1 (U_eqz W32))); FBrIf 0; FBasic (BGet 2); FBasic (BGet 4); FBasic (BOp (SStore SI32 20%Z)); FBasic (BGet 4); FBasic (BGet 2); FBasic (BOp (SStore SI32 24%Z)); FEnd; FBasic (BGet 1); FBasic (BGet 3); FBasic (BOp (SNum2 (B_irel W32 Ige_u))); FBrIf 0; FBasic (BGet 3); FBasic (BOp (SLoad LI32 4%Z)); FBasic (BTee 4); FBasic (BConst (VI32 1%Z)); FBasic (BOp (SNum2 (B_int W32 Iand))); FBasic (BOp (SNum1 (U_eqz W32))); FBrIf 0; FBlock false [] []; FBlock false [] []; FBlock false [] []; FBlock false [] []; FBlock false [] []; FBasic (BGet 4); FBasic (BConst (VI32 2%Z)); FBasic (BOp (SNum2 (B_int W32 Iand))); FBrIf 0; FBlock false [] []; FBasic (BGet 3); FBasic (BConst (VI32 0%Z)); FBasic (BOp (SLoad LI32 1057336%Z)); FBasic (BOp (SNum2 (B_irel W32 Ine))); FBrIf 0; FBasic (BConst (VI32 0%Z)); FBasic (BGet 1); FBasic (BOp (SStore SI32 1057336%Z)); FBasic (BConst (VI32 0%Z)); FBasic (BConst (VI32 0%Z)); FBasic (BOp (SLoad LI32 1057324%Z)); FBasic (BGet 0); FBasic (BOp (SNum2 (B_int W32 Iadd))); FBasic (BTee 0); FBasic (BOp (SStore SI32 1057324%Z)); FBasic (BGet 1); FBasic (BGet 0); FBasic (BConst (VI32 1%Z)); FBasic (BOp (SNum2 (B_int W32 Ior))); FBasic (BOp (SStore SI32 4%Z)); FBasic (BGet 1); FBasic (BConst (VI32 0%Z)); FBasic (BOp (SLoad LI32 1057332%Z)); FBasic (BOp (SNum2 (B_irel W32 Ine))); FBrIf 6; FBasic (BConst (VI32 0%Z)); FBasic (BConst (VI32 0%Z)); FBasic (BOp (SStore SI32 1057320%Z)); FBasic (BConst (VI32 0%Z)); FBasic (BConst (VI32 0%Z)); FBasic (BOp (SStore SI32 1057332%Z)); FReturn; FEnd; FBlock false [] []; FBasic (BGet 3); FBasic (BConst (VI32 0%Z)); FBasic (BOp (SLoad LI32 1057332%Z)); FBasic (BOp (SNum2 (B_irel W32 Ine))); FBrIf 0; FBasic (BConst (VI32 0%Z)); FBasic (BGet 1); FBasic (BOp (SStore SI32 1057332%Z)); FBasic (BConst (VI32 0%Z)); FBasic (BConst (VI32 0%Z)); FBasic (BOp (SLoad LI32 1057320%Z)); FBasic (BGet 0); FBasic (BOp (SNum2 (B_int W32 Iadd))); FBasic (BTee 0); FBasic (BOp (SStore SI32 1057320%Z)); FBasic (BGet 1); FBasic (BGet 0); FBasic (BConst (VI32 1%Z)); FBasic (BOp (SNum2 (B_int W32 Ior))); FBasic (BOp (SStore SI32 4%Z)); FBasic (BGet 1); FBasic (BGet 0); FBasic (BOp (SNum2 (B_int W32 Iadd))); FBasic (BGet 0); FBasic (BOp (SStore SI32 0%Z)); FReturn; FEnd; FBasic (BGet 4); FBasic (BConst (VI32 (-8)%Z)); FBasic (BOp (SNum2 (B_int W32 Iand))); FBasic (BGet 0); FBasic (BOp (SNum2 (B_int W32 Iadd))); FBasic (BSet 0); FBasic (BGet 3); FBasic (BOp (SLoad LI32 12%Z)); FBasic (BSet 2); FBlock false [] []; FBasic (BGet 4); FBasic (BConst (VI32 255%Z)); FBasic (BOp (SNum2 (B_irel W32 Igt_u))); FBrIf 0; FBlock false [] []; FBasic (BGet 2); FBasic (BGet 3); FBasic (BOp (SLoad LI32 8%Z)); FBasic (BTee 5); FBasic (BOp (SNum2 (B_irel W32 Ine))); FBrIf 0; FBasic (BConst (VI32 0%Z)); FBasic (BConst (VI32 0%Z)); FBasic (BOp (SLoad LI32 1057312%Z)); FBasic (BConst (VI32 (-2)%Z)); FBasic (BGet 4); FBasic (BConst (VI32 3%Z)); FBasic (BOp (SNum2 (B_int W32 Ishr_u))); FBasic (BOp (SNum2 (B_int W32 Irotl))); FBasic (BOp (SNum2 (B_int W32 Iand))); FBasic (BOp (SStore SI32 1057312%Z)); FBr 5; FEnd; FBasic (BGet 2); FBasic (BGet 5); FBasic (BOp (SStore SI32 8%Z)); FBasic (BGet 5); FBasic (BGet 2); FBasic (BOp (SStore SI32 12%Z)); FBr 4; FEnd; FBasic (BGet 3); FBasic (BOp (SLoad LI32 24%Z)); FBasic (BSet 6); FBlock false [] []; FBasic (BGet 2); FBasic (BGet 3); FBasic (BOp (SNum2 (B_irel W32 Ieq))); FBrIf 0; FBasic (BGet 3); FBasic (BOp (SLoad LI32 8%Z)); FBasic (BTee 4); FBasic (BGet 2); FBasic (BOp (SStore SI32 12%Z)); FBasic (BGet 2); FBasic (BGet 4); FBasic (BOp (SStore SI32 8%Z)); FBr 3; FEnd; FBlock false [] []; FBlock false [] []; FBasic (BGet 3); FBasic (BOp (SLoad LI32 20%Z)); FBasic (BTee 4); FBasic (BOp (SNum1 (U_eqz W32))); FBrIf 0; FBasic (BGet 3); FBasic (BConst (VI32 20%Z)); FBasic (BOp (SNum2 (B_int W32 Iadd))); FBasic (BSet 5); FBr 1; FEnd; FBasic (BGet 3); FBasic (BOp (SLoad LI32 16%Z)); FBasic (BTee 4); FBasic (BOp (SNum1 (U_eqz W32))); FBrIf 2; FBasic (BGet 3); FBasic (BConst (VI32 16%Z)); FBasic (BOp (SNum2 (B_int W32 Iadd))); FBasic (BSet 5); FEnd; FBlock true [] []; FBasic (BGet 5); FBasic (BSet 7); FBasic (BGet 4); FBasic (BTee 2); FBasic (BConst (VI32 20%Z)); FBasic (BOp (SNum2 (B_int W32 Iadd))); FBasic (BSet 5); FBasic (BGet 2); FBasic (BOp (SLoad LI32 20%Z)); FBasic (BTee 4); FBrIf 0; FBasic (BGet 2); FBasic (BConst (VI32 16%Z)); FBasic (BOp (SNum2 (B_int W32 Iadd))); FBasic (BSet 5); FBasic (BGet 2); FBasic (BOp (SLoad LI32 16%Z)); FBasic (BTee 4); FBrIf 0; FEnd; FBasic (BGet 7); FBasic (BConst (VI32 0%Z)); FBasic (BOp (SStore SI32 0%Z)); FBr 2; FEnd; FBasic (BGet 3); FBasic (BGet 4); FBasic (BConst (VI32 (-2)%Z)); FBasic (BOp (SNum2 (B_int W32 Iand))); FBasic (BOp (SStore SI32 4%Z)); FBasic (BGet 1); FBasic (BGet 0); FBasic (BOp (SNum2 (B_int W32 Iadd))); FBasic (BGet 0); FBasic (BOp (SStore SI32 0%Z)); FBasic (BGet 1); FBasic (BGet 0); FBasic (BConst (VI32 1%Z)); FBasic (BOp (SNum2 (B_int W32 Ior))); FBasic (BOp (SStore SI32 4%Z)); FBr 3; FEnd; FBasic (BConst (VI32 0%Z)); FBasic (BSet 2); FEnd; FBasic (BGet 6); FBasic (BOp (SNum1 (U_eqz W32))); FBrIf 0; FBlock false [] []; FBlock false [] []; FBasic (BGet 3); FBasic (BGet 3); FBasic (BOp (SLoad LI32 28%Z)); FBasic (BTee 5); FBasic (BConst (VI32 2%Z)); FBasic (BOp (SNum2 (B_int W32 Ishl))); FBasic (BConst (VI32 1057616%Z)); FBasic (BOp (SNum2 (B_int W32 Iadd))); FBasic (BTee 4); FBasic (BOp (SLoad LI32 0%Z)); FBasic (BOp (SNum2 (B_irel W32 Ine))); FBrIf 0; FBasic (BGet 4); FBasic (BGet 2); FBasic (BOp (SStore SI32 0%Z)); FBasic (BGet 2); FBrIf 1; FBasic (BConst (VI32 0%Z)); FBasic (BConst (VI32 0%Z)); FBasic (BOp (SLoad LI32 1057316%Z)); FBasic (BConst (VI32 (-2)%Z)); FBasic (BGet 5); FBasic (BOp (SNum2 (B_int W32 Irotl))); FBasic (BOp (SNum2 (B_int W32 Iand))); FBasic (BOp (SStore SI32 1057316%Z)); FBr 2; FEnd; FBasic (BGet 6); FBasic (BConst (VI32 16%Z)); FBasic (BConst (VI32 20%Z)); FBasic (BGet 6); FBasic (BOp (SLoad LI32 16%Z)); FBasic (BGet 3); FBasic (BOp (SNum2 (B_irel W32 Ieq))); FBasic (BSelect None); FBasic (BOp (SNum2 (B_int W32 Iadd))); FBasic (BGet 2); FBasic (BOp (SStore SI32 0%Z)); FBasic (BGet 2); FBasic (BOp (SNum1 (U_eqz W32))); FBrIf 1; FEnd; FBasic (BGet 2); FBasic (BGet 6); FBasic (BOp (SStore SI32 24%Z)); FBlock false [] []; FBasic (BGet 3); FBasic (BOp (SLoad LI32 16%Z)); FBasic (BTee 4); FBasic (BOp (SNum1 (U_eqz W32))); FBrIf 0; FBasic (BGet 2); FBasic (BGet 4); FBasic (BOp (SStore SI32 16%Z)); FBasic (BGet 4); FBasic (BGet 2); FBasic (BOp (SStore SI32 24%Z)); FEnd; FBasic (BGet 3); FBasic (BOp (SLoad LI32 20%Z)); FBasic (BTee 4); FBasic (BOp (SNum1 (U_eqz W32))); FBrIf 0; FBasic (BGet 2); FBasic (BGet 4); FBasic (BOp (SStore SI32 20%Z)); FBasic (BGet 4); FBasic (BGet 2); FBasic (BOp (SStore SI32 24%Z)); FEnd; FBasic (BGet 1); FBasic (BGet 0); FBasic (BOp (SNum2 (B_int W32 Iadd))); FBasic (BGet 0); FBasic (BOp (SStore SI32 0%Z)); FBasic (BGet 1); FBasic (BGet 0); FBasic (BConst (VI32 1%Z)); FBasic (BOp (SNum2 (B_int W32 Ior))); FBasic (BOp (SStore SI32 4%Z)); FBasic (BGet 1); FBasic (BConst (VI32 0%Z)); FBasic (BOp (SLoad LI32 1057332%Z)); FBasic (BOp (SNum2 (B_irel W32 Ine))); FBrIf 0; FBasic (BConst (VI32 0%Z)); FBasic (BGet 0); FBasic (BOp (SStore SI32 1057320%Z)); FReturn; FEnd; FBlock false [] []; FBasic (BGet 0); FBasic (BConst (VI32 255%Z)); FBasic (BOp (SNum2 (B_irel W32 Igt_u))); FBrIf 0; FBasic (BGet 0); FBasic (BConst (VI32 (-8)%Z)); FBasic (BOp (SNum2 (B_int W32 Iand))); FBasic (BConst (VI32 1057352%Z)); FBasic (BOp (SNum2 (B_int W32 Iadd))); FBasic (BSet 2); FBlock false [] []; FBlock false [] []; FBasic (BConst (VI32 0%Z)); FBasic (BOp (SLoad LI32 1057312%Z)); FBasic (BTee 4); FBasic (BConst (VI32 1%Z)); FBasic (BGet 0); FBasic (BConst (VI32 3%Z)); FBasic (BOp (SNum2 (B_int W32 Ishr_u))); FBasic (BOp (SNum2 (B_int W32 Ishl))); FBasic (BTee 0); FBasic (BOp (SNum2 (B_int W32 Iand))); FBrIf 0; FBasic (BConst (VI32 0%Z)); FBasic (BGet 4); FBasic (BGet 0); FBasic (BOp (SNum2 (B_int W32 Ior))); FBasic (BOp (SStore SI32 1057312%Z)); FBasic (BGet 2); FBasic (BSet 0); FBr 1; FEnd; FBasic (BGet 2); FBasic (BOp (SLoad LI32 8%Z)); FBasic (BSet 0); FEnd; FBasic (BGet 0); FBasic (BGet 1); FBasic (BOp (SStore SI32 12%Z)); FBasic (BGet 2); FBasic (BGet 1); FBasic (BOp (SStore SI32 8%Z)); FBasic (BGet 1); FBasic (BGet 2); FBasic (BOp (SStore SI32 12%Z)); FBasic (BGet 1); FBasic (BGet 0); FBasic (BOp (SStore SI32 8%Z)); FReturn; FEnd; FBasic (BConst (VI32 31%Z)); FBasic (BSet 2); FBlock false [] []; FBasic (BGet 0); FBasic (BConst (VI32 16777215%Z)); FBasic (BOp (SNum2 (B_irel W32 Igt_u))); FBrIf 0; FBasic (BGet 0); FBasic (BConst (VI32 38%Z)); FBasic (BGet 0); FBasic (BConst (VI32 8%Z)); FBasic (BOp (SNum2 (B_int W32 Ishr_u))); FBasic (BOp (SNum1 (U_int W32 Iclz))); FBasic (BTee 2); FBasic (BOp (SNum2 (B_int W32 Isub))); FBasic (BOp (SNum2 (B_int W32 Ishr_u))); FBasic (BConst (VI32 1%Z)); FBasic (BOp (SNum2 (B_int W32 Iand))); FBasic (BGet 2); FBasic (BConst (VI32 1%Z)); FBasic (BOp (SNum2 (B_int W32 Ishl))); FBasic (BOp (SNum2 (B_int W32 Isub))); FBasic (BConst (VI32 62%Z)); FBasic (BOp (SNum2 (B_int W32 Iadd))); FBasic (BSet 2); FEnd; FBasic (BGet 1); FBasic (BGet 2); FBasic (BOp (SStore SI32 28%Z)); FBasic (BGet 1); FBasic (BConst (VI64 0%Z)); FBasic (BOp (SStore SI64 16%Z)); FBasic (BGet 2); FBasic (BConst (VI32 2%Z)); FBasic (BOp (SNum2 (B_int W32 Ishl))); FBasic (BConst (VI32 1057616%Z)); FBasic (BOp (SNum2 (B_int W32 Iadd))); FBasic (BSet 3); FBlock false [] []; FBlock false [] []; FBlock false [] []; FBlock false [] []; FBasic (BConst (VI32 0%Z)); FBasic (BOp (SLoad LI32 1057316%Z)); FBasic (BTee 4); FBasic (BConst (VI32 1%Z)); FBasic (BGet 2); FBasic (BOp (SNum2 (B_int W32 Ishl))); FBasic (BTee 5); FBasic (BOp (SNum2 (B_int W32 Iand))); FBrIf 0; FBasic (BConst (VI32 0%Z)); FBasic (BGet 4); FBasic (BGet 5); FBasic (BOp (SNum2 (B_int W32 Ior))); FBasic (BOp (SStore SI32 1057316%Z)); FBasic (BConst (VI32 8%Z)); FBasic (BSet 0); FBasic (BConst (VI32 24%Z)); FBasic (BSet 2); FBasic (BGet 3); FBasic (BSet 5); FBr 1; FEnd; FBasic (BGet 0); FBasic (BConst (VI32 0%Z)); FBasic (BConst (VI32 25%Z)); FBasic (BGet 2); FBasic (BConst (VI32 1%Z)); FBasic (BOp (SNum2 (B_int W32 Ishr_u))); FBasic (BOp (SNum2 (B_int W32 Isub))); FBasic (BGet 2); FBasic (BConst (VI32 31%Z)); FBasic (BOp (SNum2 (B_irel W32 Ieq))); FBasic (BSelect None); FBasic (BOp (SNum2 (B_int W32 Ishl))); FBasic (BSet 2); FBasic (BGet 3); FBasic (BOp (SLoad LI32 0%Z)); FBasic (BSet 5); FBlock true [] []; FBasic (BGet 5); FBasic (BTee 4); FBasic (BOp (SLoad LI32 4%Z)); FBasic (BConst (VI32 (-8)%Z)); FBasic (BOp (SNum2 (B_int W32 Iand))); FBasic (BGet 0); FBasic (BOp (SNum2 (B_irel W32 Ieq))); FBrIf 2; FBasic (BGet 2); FBasic (BConst (VI32 29%Z)); FBasic (BOp (SNum2 (B_int W32 Ishr_u))); FBasic (BSet 5); FBasic (BGet 2); FBasic (BConst (VI32 1%Z)); FBasic (BOp (SNum2 (B_int W32 Ishl))); FBasic (BSet 2); FBasic (BGet 4); FBasic (BGet 5); FBasic (BConst (VI32 4%Z)); FBasic (BOp (SNum2 (B_int W32 Iand))); FBasic (BOp (SNum2 (B_int W32 Iadd))); FBasic (BConst (VI32 16%Z)); FBasic (BOp (SNum2 (B_int W32 Iadd))); FBasic (BTee 3); FBasic (BOp (SLoad LI32 0%Z)); FBasic (BTee 5); FBrIf 0; FEnd; FBasic (BConst (VI32 8%Z)); FBasic (BSet 0); FBasic (BConst (VI32 24%Z)); FBasic (BSet 2); FBasic (BGet 4); FBasic (BSet 5); FEnd; FBasic (BGet 1); FBasic (BSet 4); FBasic (BGet 1); FBasic (BSet 7); FBr 1; FEnd; FBasic (BGet 4); FBasic (BOp (SLoad LI32 8%Z)); FBasic (BTee 5); FBasic (BGet 1); FBasic (BOp (SStore SI32 12%Z)); FBasic (BConst (VI32 8%Z)); FBasic (BSet 2); FBasic (BGet 4); FBasic (BConst (VI32 8%Z)); FBasic (BOp (SNum2 (B_int W32 Iadd))); FBasic (BSet 3); FBasic (BConst (VI32 0%Z)); FBasic (BSet 7); FBasic (BConst (VI32 24%Z)); FBasic (BSet 0); FEnd; FBasic (BGet 3); FBasic (BGet 1); FBasic (BOp (SStore SI32 0%Z)); FBasic (BGet 1); FBasic (BGet 2); FBasic (BOp (SNum2 (B_int W32 Iadd))); FBasic (BGet 5); FBasic (BOp (SStore SI32 0%Z)); FBasic (BGet 1); FBasic (BGet 4); FBasic (BOp (SStore SI32 12%Z)); FBasic (BGet 1); FBasic (BGet 0); FBasic (BOp (SNum2 (B_int W32 Iadd))); FBasic (BGet 7); FBasic (BOp (SStore SI32 0%Z)); FBasic (BConst (VI32 0%Z)); FBasic (BConst (VI32 0%Z)); FBasic (BOp (SLoad LI32 1057344%Z)); FBasic (BConst (VI32 (-1)%Z)); FBasic (BOp (SNum2 (B_int W32 Iadd))); FBasic (BTee 1); FBasic (BConst (VI32 (-1)%Z)); FBasic (BGet 1); FBasic (BSelect None); FBasic (BOp (SStore SI32 1057344%Z)); FEnd; FEnd]; b_bad := false |};
    PCode {| b_locals := [TI32; TI64]; b_badlocals := false; b_ops := [FBlock false [] []; FBlock false [] []; FBasic (BGet 0); FBrIf 0; FBasic (BConst (VI32 0%Z)); FBasic (BSet 2); FBr 1; FEnd; FBasic (BGet 0); FBasic (BOp (SCvt (C_ext Ux))); FBasic (BGet 1); FBasic (BOp (SCvt (C_ext Ux))); FBasic (BOp (SNum2 (B_int W64 Imul))); FBasic (BTee 3); FBasic (BOp (SCvt (C_wrap))); FBasic (BSet 2); FBasic (BGet 1); FBasic (BGet 0); FBasic (BOp (SNum2 (B_int W32 Ior))); FBasic (BConst (VI32 65536%Z)); FBasic (BOp (SNum2 (B_irel W32 Ilt_u))); FBrIf 0; FBasic (BConst (VI32 (-1)%Z)); FBasic (BGet 2); FBasic (BGet 3); FBasic (BConst (VI64 32%Z)); FBasic (BOp (SNum2 (B_int W64 Ishr_u))); FBasic (BOp (SCvt (C_wrap))); FBasic (BConst (VI32 0%Z)); FBasic (BOp (SNum2 (B_irel W32 Ine))); FBasic (BSelect None); FBasic (BSet 2); FEnd; FBlock false [] []; FBasic (BGet 2); FCall 113; FBasic (BTee 0); FBasic (BOp (SNum1 (U_eqz W32))); FBrIf 0; FBasic (BGet 0); FBasic (BConst (VI32 (-4)%Z)); FBasic (BOp (SNum2 (B_int W32 Iadd))); FBasic (BOp (SLoad LI32_8u 0%Z)); FBasic (BConst (VI32 3%Z)); FBasic (BOp (SNum2 (B_int W32 Iand))); FBasic (BOp (SNum1 (U_eqz W32))); FBrIf 0; FBasic (BGet 0); FBasic (BConst (VI32 0%Z)); FBasic (BGet 2); FCall 135; FBasic BDrop; FEnd; FBasic (BGet 0); FEnd]; b_bad := false |};
    PCode {| b_locals := [TI32; TI32; TI32; TI32; TI32; TI32; TI32; TI32; TI32; TI32; TI32]; b_badlocals := false; b_ops := [FBlock false [] []; FBasic (BGet 0); FBrIf 0; FBasic (BGet 1); FCall 113; FReturn; FEnd; FBlock false [] []; FBasic (BGet 1); FBasic (BConst (VI32 (-64)%Z)); FBasic (BOp (SNum2 (B_irel W32 Ilt_u))); FBrIf 0; FBasic (BConst (VI32 0%Z)); FBasic (BConst (VI32 48%Z)); FBasic (BOp (SStore SI32 1057808%Z)); FBasic (BConst (VI32 0%Z)); FReturn; FEnd; FBasic (BConst (VI32 16%Z)); FBasic (BGet 1); FBasic (BConst (VI32 19%Z)); FBasic (BOp (SNum2 (B_int W32 Iadd))); FBasic (BConst (VI32 (-16)%Z)); FBasic (BOp (SNum2 (B_int W32 Iand))); FBasic (BGet 1); FBasic (BConst (VI32 11%Z)); FBasic (BOp (SNum2 (B_irel W32 Ilt_u))); FBasic (BSelect None); FBasic (BSet 2); FBasic (BGet 0); FBasic (BConst (VI32 (-4)%Z)); FBasic (BOp (SNum2 (B_int W32 Iadd))); FBasic (BTee 3); FBasic (BOp (SLoad LI32 0%Z)); FBasic (BTee 4); FBasic (BConst (VI32 (-8)%Z)); FBasic (BOp (SNum2 (B_int W32 Iand))); FBasic (BSet 5); FBlock false [] []; FBlock false [] []; FBlock false [] []; FBasic (BGet 4); FBasic (BConst (VI32 3%Z)); FBasic (BOp (SNum2 (B_int W32 Iand))); FBrIf 0; FBasic (BGet 2); FBasic (BConst (VI32 256%Z)); FBasic (BOp (SNum2 (B_irel W32 Ilt_u))); FBrIf 1; FBasic (BGet 5); FBasic (BGet 2); FBasic (BConst (VI32 4%Z)); FBasic (BOp (SNum2 (B_int W32 Ior))); FBasic (BOp (SNum2 (B_irel W32 Ilt_u))); FBrIf 1; FBasic (BGet 5); FBasic (BGet 2); FBasic (BOp (SNum2 (B_int W32 Isub))); FBasic (BConst (VI32 0%Z)); FBasic (BOp (SLoad LI32 1057792%Z)); FBasic (BConst (VI32 1%Z)); FBasic (BOp (SNum2 (B_int W32 Ishl))); FBasic (BOp (SNum2 (B_irel W32 Ile_u))); FBrIf 2; FBr 1; FEnd; FBasic (BGet 0); FBasic (BConst (VI32 (-8)%Z)); FBasic (BOp (SNum2 (B_int W32 Iadd))); FBasic (BTee 6); FBasic (BGet 5); FBasic (BOp (SNum2 (B_int W32 Iadd))); FBasic (BSet 7); FBlock false [] []; FBasic (BGet 5); FBasic (BGet 2); FBasic (BOp (SNum2 (B_irel W32 Ilt_u))); FBrIf 0; FBasic (BGet 5); FBasic (BGet 2); FBasic (BOp (SNum2 (B_int W32 Isub))); FBasic (BTee 1); FBasic (BConst (VI32 16%Z)); FBasic (BOp (SNum2 (B_irel W32 Ilt_u))); FBrIf 2; FBasic (BGet 3); FBasic (BGet 2); FBasic (BGet 4); FBasic (BConst (VI32 1%Z)); FBasic (BOp (SNum2 (B_int W32 Iand))); FBasic (BOp (SNum2 (B_int W32 Ior))); FBasic (BConst (VI32 2%Z)); FBasic (BOp (SNum2 (B_int W32 Ior))); FBasic (BOp (SStore SI32 0%Z)); FBasic (BGet 6); FBasic (BGet 2); FBasic (BOp (SNum2 (B_int W32 Iadd))); FBasic (BTee 2); FBasic (BGet 1); FBasic (BConst (VI32 3%Z)); FBasic (BOp (SNum2 (B_int W32 Ior))); FBasic (BOp (SStore SI32 4%Z)); FBasic (BGet 7); FBasic (BGet 7); FBasic (BOp (SLoad LI32 4%Z)); FBasic (BConst (VI32 1%Z)); FBasic (BOp (SNum2 (B_int W32 Ior))); FBasic (BOp (SStore SI32 4%Z)); FBasic (BGet 2); FBasic (BGet 1); FCall 119; FBasic (BGet 0); FReturn; FEnd; FBlock false [] []; FBasic (BGet 7); FBasic (BConst (VI32 0%Z)); FBasic (BOp (SLoad LI32 1057336%Z)); FBasic (BOp (SNum2 (B_irel W32 Ine))); FBrIf 0; FBasic (BConst (VI32 0%Z)); FBasic (BOp (SLoad LI32 1057324%Z)); FBasic (BGet 5); FBasic (BOp (SNum2 (B_int W32 Iadd))); FBasic (BTee 5); FBasic (BGet 2); FBasic (BOp (SNum2 (B_irel W32 Ile_u))); FBrIf 1; FBasic (BGet 3); FBasic (BGet 2); FBasic (BGet 4); FBasic (BConst (VI32 1%Z)); FBasic (BOp (SNum2 (B_int W32 Iand))); FBasic (BOp (SNum2 (B_int W32 Ior))); FBasic (BConst (VI32 2%Z)); FBasic (BOp (SNum2 (B_int W32 Ior))); FBasic (BOp (SStore SI32 0%Z)); FBasic (BConst (VI32 0%Z)); FBasic (BGet 6); FBasic (BGet 2); FBasic (BOp (SNum2 (B_int W32 Iadd))); FBasic (BTee 1); FBasic (BOp (SStore SI32 1057336%Z)); FBasic (BConst (VI32 0%Z)); FBasic (BGet 5); FBasic (BGet 2); FBasic (BOp (SNum2 (B_int W32 Isub))); FBasic (BTee 2); FBasic (BOp (SStore SI32 1057324%Z)); FBasic (BGet 1); FBasic (BGet 2); FBasic (BConst (VI32 1%Z)); FBasic (BOp (SNum2 (B_int W32 Ior))); FBasic (BOp (SStore SI32 4%Z)); FBasic (BGet 0); FReturn; FEnd; FBlock false [] []; FBasic (BGet 7); FBasic (BConst (VI32 0%Z)); FBasic (BOp (SLoad LI32 1057332%Z)); FBasic (BOp (SNum2 (B_irel W32 Ine))); FBrIf 0; FBasic (BConst (VI32 0%Z)); FBasic (BOp (SLoad LI32 1057320%Z)); FBasic (BGet 5); FBasic (BOp (SNum2 (B_int W32 Iadd))); FBasic (BTee 5); FBasic (BGet 2); FBasic (BOp (SNum2 (B_irel W32 Ilt_u))); FBrIf 1; FBlock false [] []; FBlock false [] []; FBasic (BGet 5); FBasic (BGet 2); FBasic (BOp (SNum2 (B_int W32 Isub))); FBasic (BTee 1); FBasic (BConst (VI32 16%Z)); FBasic (BOp (SNum2 (B_irel W32 Ilt_u))); FBrIf 0; FBasic (BGet 3); FBasic (BGet 2); FBasic (BGet 4); FBasic (BConst (VI32 1%Z)); FBasic (BOp (SNum2 (B_int W32 Iand))); FBasic (BOp (SNum2 (B_int W32 Ior))); FBasic (BConst (VI32 2%Z)); FBasic (BOp (SNum2 (B_int W32 Ior))); FBasic (BOp (SStore SI32 0%Z)); FBasic (BGet 6); FBasic (BGet 2); FBasic (BOp (SNum2 (B_int W32 Iadd))); FBasic (BTee 2); FBasic (BGet 1); FBasic (BConst (VI32 1%Z)); FBasic (BOp (SNum2 (B_int W32 Ior))); FBasic (BOp (SStore SI32 4%Z)); FBasic (BGet 6); FBasic (BGet 5); FBasic (BOp (SNum2 (B_int W32 Iadd))); FBasic (BTee 5); FBasic (BGet 1); FBasic (BOp (SStore SI32 0%Z)); FBasic (BGet 5); FBasic (BGet 5); FBasic (BOp (SLoad LI32 4%Z)); FBasic (BConst (VI32 (-2)%Z)); FBasic (BOp (SNum2 (B_int W32 Iand))); FBasic (BOp (SStore SI32 4%Z)); FBr 1; FEnd; FBasic (BGet 3); FBasic (BGet 4); FBasic (BConst (VI32 1%Z)); FBasic (BOp (SNum2 (B_int W32 Iand))); FBasic (BGet 5); FBasic (BOp (SNum2 (B_int W32 Ior))); FBasic (BConst (VI32 2%Z)); FBasic (BOp (SNum2 (B_int W32 Ior))); FBasic (BOp (SStore SI32 0%Z)); FBasic (BGet 6); FBasic (BGet 5); FBasic (BOp (SNum2 (B_int W32 Iadd))); FBasic (BTee 1); FBasic (BGet 1); FBasic (BOp (SLoad LI32 4%Z)); FBasic (BConst (VI32 1%Z)); FBasic (BOp (SNum2 (B_int W32 Ior))); FBasic (BOp (SStore SI32 4%Z)); FBasic (BConst (VI32 0%Z)); FBasic (BSet 1); FBasic (BConst (VI32 0%Z)); FBasic (BSet 2); FEnd; FBasic (BConst (VI32 0%Z)); FBasic (BGet 2); FBasic (BOp (SStore SI32 1057332%Z)); FBasic (BConst (VI32 0%Z)); FBasic (BGet 1); FBasic (BOp (SStore SI32 1057320%Z)); FBasic (BGet 0); FReturn; FEnd; FBasic (BGet 7); FBasic (BOp (SLoad LI32 4%Z)); FBasic (BTee 8); FBasic (BConst (VI32 2%Z)); FBasic (BOp (SNum2 (B_int W32 Iand))); FBrIf 0; FBasic (BGet 8); FBasic (BConst (VI32 (-8)%Z)); FBasic (BOp (SNum2 (B_int W32 Iand))); FBasic (BGet 5); FBasic (BOp (SNum2 (B_int W32 Iadd))); FBasic (BTee 9); FBasic (BGet 2); FBasic (BOp (SNum2 (B_irel W32 Ilt_u))); FBrIf 0; FBasic (BGet 9); FBasic (BGet 2); FBasic (BOp (SNum2 (B_int W32 Isub))); FBasic (BSet 10); FBasic (BGet 7); FBasic (BOp (SLoad LI32 12%Z)); FBasic (BSet 1); FBlock false [] []; FBlock false [] []; FBasic (BGet 8); FBasic (BConst (VI32 255%Z)); FBasic (BOp (SNum2 (B_irel W32 Igt_u))); FBrIf 0; FBlock false [] []; FBasic (BGet 1); FBasic (BGet 7); FBasic (BOp (SLoad LI32 8%Z)); FBasic (BTee 5); FBasic (BOp (SNum2 (B_irel W32 Ine))); FBrIf 0; FBasic (BConst (VI32 0%Z)); FBasic (BConst (VI32 0%Z)); FBasic (BOp (SLoad LI32 1057312%Z)); FBasic (BConst (VI32 (-2)%Z)); FBasic (BGet 8); FBasic (BConst (VI32 3%Z)); FBasic (BOp (SNum2 (B_int W32 Ishr_u))); FBasic (BOp (SNum2 (B_int W32 Irotl))); FBasic (BOp (SNum2 (B_int W32 Iand))); FBasic (BOp (SStore SI32 1057312%Z)); FBr 2; FEnd; FBasic (BGet 1); FBasic (BGet 5); FBasic (BOp (SStore SI32 8%Z)); FBasic (BGet 5); FBasic (BGet 1); FBasic (BOp (SStore SI32 12%Z)); FBr 1; FEnd; FBasic (BGet 7); FBasic (BOp (SLoad LI32 24%Z)); FBasic (BSet 11); FBlock false [] []; FBlock false [] []; FBasic (BGet 1); FBasic (BGet 7); FBasic (BOp (SNum2 (B_irel W32 Ieq))); FBrIf 0; FBasic (BGet 7); FBasic (BOp (SLoad LI32 8%Z)); FBasic (BTee 5); FBasic (BGet 1); FBasic (BOp (SStore SI32 12%Z)); FBasic (BGet 1); FBasic (BGet 5); FBasic (BOp (SStore SI32 8%Z)); FBr 1; FEnd; FBlock false [] []; FBlock false [] []; FBlock false [] []; FBasic (BGet 7); FBasic (BOp (SLoad LI32 20%Z)); FBasic (BTee 5); FBasic (BOp (SNum1 (U_eqz W32))); FBrIf 0; FBasic (BGet 7); FBasic (BConst (VI32 20%Z)); FBasic (BOp (SNum2 (B_int W32 Iadd))); FBasic (BSet 8); FBr 1; FEnd; FBasic (BGet 7); FBasic (BOp (SLoad LI32 16%Z)); FBasic (BTee 5); FBasic (BOp (SNum1 (U_eqz W32))); FBrIf 1; FBasic (BGet 7); FBasic (BConst (VI32 16%Z)); FBasic (BOp (SNum2 (B_int W32 Iadd))); FBasic (BSet 8); FEnd; FBlock true [] []; FBasic (BGet 8); FBasic (BSet 12); FBasic (BGet 5); FBasic (BTee 1); FBasic (BConst (VI32 20%Z)); FBasic (BOp (SNum2 (B_int W32 Iadd))); FBasic (BSet 8); FBasic (BGet 1); FBasic (BOp (SLoad LI32 20%Z)); FBasic (BTee 5); FBrIf 0; FBasic (BGet 1); FBasic (BConst (VI32 16%Z)); FBasic (BOp (SNum2 (B_int W32 Iadd))); FBasic (BSet 8); FBasic (BGet 1); FBasic (BOp (SLoad LI32 16%Z)); FBasic (BTee 5); FBrIf 0; FEnd; FBasic (BGet 12); FBasic (BConst (VI32 0%Z)); FBasic (BOp (SStore SI32 0%Z)); FBr 1; FEnd; FBasic (BConst (VI32 0%Z)); FBasic (BSet 1); FEnd; FBasic (BGet 11); FBasic (BOp (SNum1 (U_eqz W32))); FBrIf 0; FBlock false [] []; FBlock false [] []; FBasic (BGet 7); FBasic (BGet 7); FBasic (BOp (SLoad LI32 28%Z)); FBasic (BTee 8); FBasic (BConst (VI32 2%Z)); FBasic (BOp (SNum2 (B_int W32 Ishl))); FBasic (BConst (VI32 1057616%Z)); FBasic (BOp (SNum2 (B_int W32 Iadd))); FBasic (BTee 5); FBasic (BOp (SLoad LI32 0%Z)); FBasic (BOp (SNum2 (B_irel W32 Ine))); FBrIf 0; FBasic (BGet 5); FBasic (BGet 1); FBasic (BOp (SStore SI32 0%Z)); FBasic (BGet 1); FBrIf 1; FBasic (BConst (VI32 0%Z)); FBasic (BConst (VI32 0%Z)); FBasic (BOp (SLoad LI32 1057316%Z)); FBasic (BConst (VI32 (-2)%Z)); FBasic (BGet 8); FBasic (BOp (SNum2 (B_int W32 Irotl))); FBasic (BOp (SNum2 (B_int W32 Iand))); FBasic (BOp (SStore SI32 1057316%Z)); FBr 2; FEnd; FBasic (BGet 11); FBasic (BConst (VI32 16%Z)); FBasic (BConst (VI32 20%Z)); FBasic (BGet 11); FBasic (BOp (SLoad LI32 16%Z)); FBasic (BGet 7); FBasic (BOp (SNum2 (B_irel W32 Ieq))); FBasic (BSelect None); FBasic (BOp (SNum2 (B_int W32 Iadd))); FBasic (BGet 1); FBasic (BOp (SStore SI32 0%Z)); FBasic (BGet 1); FBasic (BOp (SNum1 (U_eqz W32))); FBrIf 1; FEnd; FBasic (BGet 1); FBasic (BGet 11); FBasic (BOp (SStore SI32 24%Z)); FBlock false [] []; FBasic (BGet 7); FBasic (BOp (SLoad LI32 16%Z)); FBasic (BTee 5); FBasic (BOp (SNum1 (U_eqz W32))); FBrIf 0; FBasic (BGet 1); FBasic (BGet 5); FBasic (BOp (SStore SI32 16%Z)); FBasic (BGet 5); FBasic (BGet 1); FBasic (BOp (SStore SI32 24%Z)); FEnd; FBasic (BGet 7); FBasic (BOp (SLoad LI32 20%Z)); FBasic (BTee 5); FBasic (BOp (SNum1 (U_eqz W32))); FBrIf 0; FBasic (BGet 1); FBasic (BGet 5); FBasic (BOp (SStore SI32 20%Z)); FBasic (BGet 5); FBasic (BGet 1); FBasic (BOp (SStore SI32 24%Z)); FEnd; FBlock false [] []; FBasic (BGet 10); FBasic (BConst (VI32 15%Z)); FBasic (BOp (SNum2 (B_irel W32 Igt_u))); FBrIf 0; FBasic (BGet 3); FBasic (BGet 4); FBasic (BConst (VI32 1%Z)); FBasic (BOp (SNum2 (B_int W32 Iand))); FBasic (BGet 9); FBasic (BOp (SNum2 (B_int W32 Ior))); FBasic (BConst (VI32 2%Z)); FBasic (BOp (SNum2 (B_int W32 Ior))); FBasic (BOp (SStore SI32 0%Z)); FBasic (BGet 6); FBasic (BGet 9); FBasic (BOp (SNum2 (B_int W32 Iadd))); FBasic (BTee 1); FBasic (BGet 1); FBasic (BOp (SLoad LI32 4%Z)); FBasic (BConst (VI32 1%Z)); FBasic (BOp (SNum2 (B_int W32 Ior))); FBasic (BOp (SStore SI32 4%Z)); FBasic (BGet 0); FReturn; FEnd; FBasic (BGet 3); FBasic (BGet 2); FBasic (BGet 4); FBasic (BConst (VI32 1%Z)); FBasic (BOp (SNum2 (B_int W32 Iand))); FBasic (BOp (SNum2 (B_int W32 Ior))); FBasic (BConst (VI32 2%Z)); FBasic (BOp (SNum2 (B_int W32 Ior))); FBasic (BOp (SStore SI32 0%Z)); FBasic (BGet 6); FBasic (BGet 2); FBasic (BOp (SNum2 (B_int W32 Iadd))); FBasic (BTee 1); FBasic (BGet 10); FBasic (BConst (VI32 3%Z)); FBasic (BOp (SNum2 (B_int W32 Ior))); FBasic (BOp (SStore SI32 4%Z)); FBasic (BGet 6); FBasic (BGet 9); FBasic (BOp (SNum2 (B_int W32 Iadd))); FBasic (BTee 2); FBasic (BGet 2); FBasic (BOp (SLoad LI32 4%Z)); FBasic (BConst (VI32 1%Z)); FBasic (BOp (SNum2 (B_int W32 Ior))); FBasic (BOp (SStore SI32 4%Z)); FBasic (BGet 1); FBasic (BGet 10); FCall 119; FBasic (BGet 0); FReturn; FEnd; FBlock false [] []; FBasic (BGet 1); FCall 113; FBasic (BTee 2); FBrIf 0; FBasic (BConst (VI32 0%Z)); FReturn; FEnd; FBasic (BGet 2); FBasic (BGet 0); FBasic (BConst (VI32 (-4)%Z)); FBasic (BConst (VI32 (-8)%Z)); FBasic (BGet 3); FBasic (BOp (SLoad LI32 0%Z)); FBasic (BTee 5); FBasic (BConst (VI32 3%Z)); FBasic (BOp (SNum2 (B_int W32 Iand))); FBasic (BSelect None); FBasic (BGet 5); FBasic (BConst (VI32 (-8)%Z)); FBasic (BOp (SNum2 (B_int W32 Iand))); FBasic (BOp (SNum2 (B_int W32 Iadd))); FBasic (BTee 5); FBasic (BGet 1); FBasic (BGet 5); FBasic (BGet 1); FBasic (BOp (SNum2 (B_irel W32 Ilt_u))); FBasic (BSelect None); FCall 134; FBasic (BSet 1); FBasic (BGet 0); FCall 116; FBasic (BGet 1); FBasic (BSet 0); FEnd; FBasic (BGet 0); FEnd]; b_bad := false |};
    PCode {| b_locals := [TI32; TI32; TI32; TI32; TI32; TI32]; b_badlocals := false; b_ops := [FBasic (BGet 0); FBasic (BGet 1); FBasic (BOp (SNum2 (B_int W32 Iadd))); FBasic (BSet 2); FBlock false [] []; FBlock false [] []; FBasic (BGet 0); FBasic (BOp (SLoad LI32 4%Z)); FBasic (BTee 3); FBasic (BConst (VI32 1%Z)); FBasic (BOp (SNum2 (B_int W32 Iand))); FBrIf 0; FBasic (BGet 3); FBasic (BConst (VI32 2%Z)); FBasic (BOp (SNum2 (B_int W32 Iand))); FBasic (BOp (SNum1 (U_eqz W32))); FBrIf 1; FBasic (BGet 0); FBasic (BOp (SLoad LI32 0%Z)); FBasic (BTee 4); FBasic (BGet 1); FBasic (BOp (SNum2 (B_int W32 Iadd))); FBasic (BSet 1); FBlock false [] []; FBlock false [] []; FBlock false [] []; FBlock false [] []; FBasic (BGet 0); FBasic (BGet 4); FBasic (BOp (SNum2 (B_int W32 Isub))); FBasic (BTee 0); FBasic (BConst (VI32 0%Z)); FBasic (BOp (SLoad LI32 1057332%Z)); FBasic (BOp (SNum2 (B_irel W32 Ieq))); FBrIf 0; FBasic (BGet 0); FBasic (BOp (SLoad LI32 12%Z)); FBasic (BSet 3); FBlock false [] []; FBasic (BGet 4); FBasic (BConst (VI32 255%Z)); FBasic (BOp (SNum2 (B_irel W32 Igt_u))); FBrIf 0; FBasic (BGet 3); FBasic (BGet 0); FBasic (BOp (SLoad LI32 8%Z)); FBasic (BTee 5); FBasic (BOp (SNum2 (B_irel W32 Ine))); FBrIf 2; FBasic (BConst (VI32 0%Z)); FBasic (BConst (VI32 0%Z)); FBasic (BOp (SLoad LI32 1057312%Z)); FBasic (BConst (VI32 (-2)%Z)); FBasic (BGet 4); FBasic (BConst (VI32 3%Z)); FBasic (BOp (SNum2 (B_int W32 Ishr_u))); FBasic (BOp (SNum2 (B_int W32 Irotl))); FBasic (BOp (SNum2 (B_int W32 Iand))); FBasic (BOp (SStore SI32 1057312%Z)); FBr 5; FEnd; FBasic (BGet 0); FBasic (BOp (SLoad LI32 24%Z)); FBasic (BSet 6); FBlock false [] []; FBasic (BGet 3); FBasic (BGet 0); FBasic (BOp (SNum2 (B_irel W32 Ieq))); FBrIf 0; FBasic (BGet 0); FBasic (BOp (SLoad LI32 8%Z)); FBasic (BTee 4); FBasic (BGet 3); FBasic (BOp (SStore SI32 12%Z)); FBasic (BGet 3); FBasic (BGet 4); FBasic (BOp (SStore SI32 8%Z)); FBr 4; FEnd; FBlock false [] []; FBlock false [] []; FBasic (BGet 0); FBasic (BOp (SLoad LI32 20%Z)); FBasic (BTee 4); FBasic (BOp (SNum1 (U_eqz W32))); FBrIf 0; FBasic (BGet 0); FBasic (BConst (VI32 20%Z)); FBasic (BOp (SNum2 (B_int W32 Iadd))); FBasic (BSet 5); FBr 1; FEnd; FBasic (BGet 0); FBasic (BOp (SLoad LI32 16%Z)); FBasic (BTee 4); FBasic (BOp (SNum1 (U_eqz W32))); FBrIf 3; FBasic (BGet 0); FBasic (BConst (VI32 16%Z)); FBasic (BOp (SNum2 (B_int W32 Iadd))); FBasic (BSet 5); FEnd; FBlock true [] []; FBasic (BGet 5); FBasic (BSet 7); FBasic (BGet 4); FBasic (BTee 3); FBasic (BConst (VI32 20%Z)); FBasic (BOp (SNum2 (B_int W32 Iadd))); FBasic (BSet 5); FBasic (BGet 3); FBasic (BOp (SLoad LI32 20%Z)); FBasic (BTee 4); FBrIf 0; FBasic (BGet 3); FBasic (BConst (VI32 16%Z)); FBasic (BOp (SNum2 (B_int W32 Iadd))); FBasic (BSet 5); FBasic (BGet 3); FBasic (BOp (SLoad LI32 16%Z)); FBasic (BTee 4); FBrIf 0; FEnd; FBasic (BGet 7); FBasic (BConst (VI32 0%Z)); FBasic (BOp (SStore SI32 0%Z)); FBr 3; FEnd; FBasic (BGet 2); FBasic (BOp (SLoad LI32 4%Z)); FBasic (BTee 3); FBasic (BConst (VI32 3%Z)); FBasic (BOp (SNum2 (B_int W32 Iand))); FBasic (BConst (VI32 3%Z)); FBasic (BOp (SNum2 (B_irel W32 Ine))); FBrIf 3; FBasic (BGet 2); FBasic (BGet 3); FBasic (BConst (VI32 (-2)%Z)); FBasic (BOp (SNum2 (B_int W32 Iand))); FBasic (BOp (SStore SI32 4%Z)); FBasic (BConst (VI32 0%Z)); FBasic (BGet 1); FBasic (BOp (SStore SI32 1057320%Z)); FBasic (BGet 2); FBasic (BGet 1); FBasic (BOp (SStore SI32 0%Z)); FBasic (BGet 0); FBasic (BGet 1); FBasic (BConst (VI32 1%Z)); FBasic (BOp (SNum2 (B_int W32 Ior))); FBasic (BOp (SStore SI32 4%Z)); FReturn; FEnd; FBasic (BGet 3); FBasic (BGet 5); FBasic (BOp (SStore SI32 8%Z)); FBasic (BGet 5); FBasic (BGet 3); FBasic (BOp (SStore SI32 12%Z)); FBr 2; FEnd; FBasic (BConst (VI32 0%Z)); FBasic (BSet 3); FEnd; FBasic (BGet 6); FBasic (BOp (SNum1 (U_eqz W32))); FBrIf 0; FBlock false [] []; FBlock false [] []; FBasic (BGet 0); FBasic (BGet 0); FBasic (BOp (SLoad LI32 28%Z)); FBasic (BTee 5); FBasic (BConst (VI32 2%Z)); FBasic (BOp (SNum2 (B_int W32 Ishl))); FBasic (BConst (VI32 1057616%Z)); FBasic (BOp (SNum2 (B_int W32 Iadd))); FBasic (BTee 4); FBasic (BOp (SLoad LI32 0%Z)); FBasic (BOp (SNum2 (B_irel W32 Ine))); FBrIf 0; FBasic (BGet 4); FBasic (BGet 3); FBasic (BOp (SStore SI32 0%Z)); FBasic (BGet 3); FBrIf 1; FBasic (BConst (VI32 0%Z)); FBasic (BConst (VI32 0%Z)); FBasic (BOp (SLoad LI32 1057316%Z)); FBasic (BConst (VI32 (-2)%Z)); FBasic (BGet 5); FBasic (BOp (SNum2 (B_int W32 Irotl))); FBasic (BOp (SNum2 (B_int W32 Iand))); FBasic (BOp (SStore SI32 1057316%Z)); FBr 2; FEnd; FBasic (BGet 6); FBasic (BConst (VI32 16%Z)); FBasic (BConst (VI32 20%Z)); FBasic (BGet 6); FBasic (BOp (SLoad LI32 16%Z)); FBasic (BGet 0); FBasic (BOp (SNum2 (B_irel W32 Ieq))); FBasic (BSelect None); FBasic (BOp (SNum2 (B_int W32 Iadd))); FBasic (BGet 3); FBasic (BOp (SStore SI32 0%Z)); FBasic (BGet 3); FBasic (BOp (SNum1 (U_eqz W32))); FBrIf 1; FEnd; FBasic (BGet 3); FBasic (BGet 6); FBasic (BOp (SStore SI32 24%Z)); FBlock false [] []; FBasic (BGet 0); FBasic (BOp (SLoad LI32 16%Z)); FBasic (BTee 4); FBasic (BOp (SNum1 (U_eqz W32))); FBrIf 0; FBasic (BGet 3); FBasic (BGet 4); FBasic (BOp (SStore SI32 16%Z)); FBasic (BGet 4); FBasic (BGet 3); FBasic (BOp (SStore SI32 24%Z)); FEnd; FBasic (BGet 0); FBasic (BOp (SLoad LI32 20%Z)); FBasic (BTee 4); FBasic (BOp (SNum1 (U_eqz W32))); FBrIf 0; FBasic (BGet 3); FBasic (BGet 4); FBasic (BOp (SStore SI32 20%Z)); FBasic (BGet 4); FBasic (BGet 3); FBasic (BOp (SStore SI32 24%Z)); FEnd; FBlock false [] []; FBlock false [] []; FBlock false [] []; FBlock false [] []; FBlock false [] []; FBasic (BGet 2); FBasic (BOp (SLoad LI32 4%Z)); FBasic (BTee 4); FBasic (BConst (VI32 2%Z)); FBasic (BOp (SNum2 (B_int W32 Iand))); FBrIf 0; FBlock false [] []; FBasic (BGet 2); FBasic (BConst (VI32 0%Z)); FBasic (BOp (SLoad LI32 1057336%Z)); FBasic (BOp (SNum2 (B_irel W32 Ine))); FBrIf 0; FBasic (BConst (VI32 0%Z)); FBasic (BGet 0); FBasic (BOp (SStore SI32 1057336%Z)); FBasic (BConst (VI32 0%Z)); FBasic (BConst (VI32 0%Z)); FBasic (BOp (SLoad LI32 1057324%Z)); FBasic (BGet 1); FBasic (BOp (SNum2 (B_int W32 Iadd))); FBasic (BTee 1); FBasic (BOp (SStore SI32 1057324%Z)); FBasic (BGet 0); FBasic (BGet 1); FBasic (BConst (VI32 1%Z)); FBasic (BOp (SNum2 (B_int W32 Ior))); FBasic (BOp (SStore SI32 4%Z)); FBasic (BGet 0); FBasic (BConst (VI32 0%Z)); FBasic (BOp (SLoad LI32 1057332%Z)); FBasic (BOp (SNum2 (B_irel W32 Ine))); FBrIf 6; FBasic (BConst (VI32 0%Z)); FBasic (BConst (VI32 0%Z)); FBasic (BOp (SStore SI32 1057320%Z)); FBasic (BConst (VI32 0%Z)); FBasic (BConst (VI32 0%Z)); FBasic (BOp (SStore SI32 1057332%Z)); FReturn; FEnd; FBlock false [] []; FBasic (BGet 2); FBasic (BConst (VI32 0%Z)); FBasic (BOp (SLoad LI32 1057332%Z)); FBasic (BOp (SNum2 (B_irel W32 Ine))); FBrIf 0; FBasic (BConst (VI32 0%Z)); FBasic (BGet 0); FBasic (BOp (SStore SI32 1057332%Z)); FBasic (BConst (VI32 0%Z)); FBasic (BConst (VI32 0%Z)); FBasic (BOp (SLoad LI32 1057320%Z)); FBasic (BGet 1); FBasic (BOp (SNum2 (B_int W32 Iadd))); FBasic (BTee 1); FBasic (BOp (SStore SI32 1057320%Z)); FBasic (BGet 0); FBasic (BGet 1); FBasic (BConst (VI32 1%Z)); FBasic (BOp (SNum2 (B_int W32 Ior))); FBasic (BOp (SStore SI32 4%Z)); FBasic (BGet 0); FBasic (BGet 1); FBasic (BOp (SNum2 (B_int W32 Iadd))); FBasic (BGet 1); FBasic (BOp (SStore SI32 0%Z)); FReturn; FEnd; FBasic (BGet 4); FBasic (BConst (VI32 (-8)%Z)); FBasic (BOp (SNum2 (B_int W32 Iand))); FBasic (BGet 1); FBasic (BOp (SNum2 (B_int W32 Iadd))); FBasic (BSet 1); FBasic (BGet 2); FBasic (BOp (SLoad LI32 12%Z)); FBasic (BSet 3); FBlock false [] []; FBasic (BGet 4); FBasic (BConst (VI32 255%Z)); FBasic (BOp (SNum2 (B_irel W32 Igt_u))); FBrIf 0; FBlock false [] []; FBasic (BGet 3); FBasic (BGet 2); FBasic (BOp (SLoad LI32 8%Z)); FBasic (BTee 5); FBasic (BOp (SNum2 (B_irel W32 Ine))); FBrIf 0; FBasic (BConst (VI32 0%Z)); FBasic (BConst (VI32 0%Z)); FBasic (BOp (SLoad LI32 1057312%Z)); FBasic (BConst (VI32 (-2)%Z)); FBasic (BGet 4); FBasic (BConst (VI32 3%Z)); FBasic (BOp (SNum2 (B_int W32 Ishr_u))); FBasic (BOp (SNum2 (B_int W32 Irotl))); FBasic (BOp (SNum2 (B_int W32 Iand))); FBasic (BOp (SStore SI32 1057312%Z)); FBr 5; FEnd; FBasic (BGet 3); FBasic (BGet 5); FBasic (BOp (SStore SI32 8%Z)); FBasic (BGet 5); FBasic (BGet 3); FBasic (BOp (SStore SI32 12%Z)); FBr 4; FEnd; FBasic (BGet 2); FBasic (BOp (SLoad LI32 24%Z)); FBasic (BSet 6); FBlock false [] []; FBasic (BGet 3); FBasic (BGet 2); FBasic (BOp (SNum2 (B_irel W32 Ieq))); FBrIf 0; FBasic (BGet 2); FBasic (BOp (SLoad LI32 8%Z)); FBasic (BTee 4); FBasic (BGet 3); FBasic (BOp (SStore SI32 12%Z)); FBasic (BGet 3); FBasic (BGet 4); FBasic (BOp (SStore SI32 8%Z)); FBr 3; FEnd; FBlock false [] []; FBlock false [] []; FBasic (BGet 2); FBasic (BOp (SLoad LI32 20%Z)); FBasic (BTee 4); FBasic (BOp (SNum1 (U_eqz W32))); FBrIf 0; FBasic (BGet 2); FBasic (BConst (VI32 20%Z)); FBasic (BOp (SNum2 (B_int W32 Iadd))); FBasic (BSet 5); FBr 1; FEnd; FBasic (BGet 2); FBasic (BOp (SLoad LI32 16%Z)); FBasic (BTee 4); FBasic (BOp (SNum1 (U_eqz W32))); FBrIf 2; FBasic (BGet 2); FBasic (BConst (VI32 16%Z)); FBasic (BOp (SNum2 (B_int W32 Iadd))); FBasic (BSet 5); FEnd; FBlock true [] []; FBasic (BGet 5); FBasic (BSet 7); FBasic (BGet 4); FBasic (BTee 3); FBasic (BConst (VI32 20%Z)); FBasic (BOp (SNum2 (B_int W32 Iadd))); FBasic (BSet 5); FBasic (BGet 3); FBasic (BOp (SLoad LI32 20%Z)); FBasic (BTee 4); FBrIf 0; FBasic (BGet 3); FBasic (BConst (VI32 16%Z)); FBasic (BOp (SNum2 (B_int W32 Iadd))); FBasic (BSet 5); FBasic (BGet 3); FBasic (BOp (SLoad LI32 16%Z)); FBasic (BTee 4); FBrIf 0; FEnd; FBasic (BGet 7); FBasic (BConst (VI32 0%Z)); FBasic (BOp (SStore SI32 0%Z)); FBr 2; FEnd; FBasic (BGet 2); FBasic (BGet 4); FBasic (BConst (VI32 (-2)%Z)); FBasic (BOp (SNum2 (B_int W32 Iand))); FBasic (BOp (SStore SI32 4%Z)); FBasic (BGet 0); FBasic (BGet 1); FBasic (BOp (SNum2 (B_int W32 Iadd))); FBasic (BGet 1); FBasic (BOp (SStore SI32 0%Z)); FBasic (BGet 0); FBasic (BGet 1); FBasic (BConst (VI32 1%Z)); FBasic (BOp (SNum2 (B_int W32 Ior))); FBasic (BOp (SStore SI32 4%Z)); FBr 3; FEnd; FBasic (BConst (VI32 0%Z)); FBasic (BSet 3); FEnd; FBasic (BGet 6); FBasic (BOp (SNum1 (U_eqz W32))); FBrIf 0; FBlock false [] []; FBlock false [] []; FBasic (BGet 2); FBasic (BGet 2); FBasic (BOp (SLoad LI32 28%Z)); FBasic (BTee 5); FBasic (BConst (VI32 2%Z)); FBasic (BOp (SNum2 (B_int W32 Ishl))); FBasic (BConst (VI32 1057616%Z)); FBasic (BOp (SNum2 (B_int W32 Iadd))); FBasic (BTee 4); FBasic (BOp (SLoad LI32 0%Z)); FBasic (BOp (SNum2 (B_irel W32 Ine))); FBrIf 0; FBasic (BGet 4); FBasic (BGet 3); FBasic (BOp (SStore SI32 0%Z)); FBasic (BGet 3); FBrIf 1; FBasic (BConst (VI32 0%Z)); FBasic (BConst (VI32 0%Z)); FBasic (BOp (SLoad LI32 1057316%Z)); FBasic (BConst (VI32 (-2)%Z)); FBasic (BGet 5); FBasic (BOp (SNum2 (B_int W32 Irotl))); FBasic (BOp (SNum2 (B_int W32 Iand))); FBasic (BOp (SStore SI32 1057316%Z)); FBr 2; FEnd; FBasic (BGet 6); FBasic (BConst (VI32 16%Z)); FBasic (BConst (VI32 20%Z)); FBasic (BGet 6); FBasic (BOp (SLoad LI32 16%Z)); FBasic (BGet 2); FBasic (BOp (SNum2 (B_irel W32 Ieq))); FBasic (BSelect None); FBasic (BOp (SNum2 (B_int W32 Iadd))); FBasic (BGet 3); FBasic (BOp (SStore SI32 0%Z)); FBasic (BGet 3); FBasic (BOp (SNum1 (U_eqz W32))); FBrIf 1; FEnd; FBasic (BGet 3); FBasic (BGet 6); FBasic (BOp (SStore SI32 24%Z)); FBlock false [] []; FBasic (BGet 2); FBasic (BOp (SLoad LI32 16%Z)); FBasic (BTee 4); FBasic (BOp (SNum1 (U_eqz W32))); FBrIf 0; FBasic (BGet 3); FBasic (BGet 4); FBasic (BOp (SStore SI32 16%Z)); FBasic (BGet 4); FBasic (BGet 3); FBasic (BOp (SStore SI32 24%Z)); FEnd; FBasic (BGet 2); FBasic (BOp (SLoad LI32 20%Z)); FBasic (BTee 4); FBasic (BOp (SNum1 (U_eqz W32))); FBrIf 0; FBasic (BGet 3); FBasic (BGet 4); FBasic (BOp (SStore SI32 20%Z)); FBasic (BGet 4); FBasic (BGet 3); FBasic (BOp (SStore SI32 24%Z)); FEnd; FBasic (BGet 0); FBasic (BGet 1); FBasic (BOp (SNum2 (B_int W32 Iadd))); FBasic (BGet 1); FBasic (BOp (SStore SI32 0%Z)); FBasic (BGet 0); FBasic (BGet 1); FBasic (BConst (VI32 1%Z)); FBasic (BOp (SNum2 (B_int W32 Ior))); FBasic (BOp (SStore SI32 4%Z)); FBasic (BGet 0); FBasic (BConst (VI32 0%Z)); FBasic (BOp (SLoad LI32 1057332%Z)); FBasic (BOp (SNum2 (B_irel W32 Ine))); FBrIf 0; FBasic (BConst (VI32 0%Z)); FBasic (BGet 1); FBasic (BOp (SStore SI32 1057320%Z)); FReturn; FEnd; FBlock false [] []; FBasic (BGet 1); FBasic (BConst (VI32 255%Z)); FBasic (BOp (SNum2 (B_irel W32 Igt_u))); FBrIf 0; FBasic (BGet 1); FBasic (BConst (VI32 (-8)%Z)); FBasic (BOp (SNum2 (B_int W32 Iand))); FBasic (BConst (VI32 1057352%Z)); FBasic (BOp (SNum2 (B_int W32 Iadd))); FBasic (BSet 3); FBlock false [] []; FBlock false [] []; FBasic (BConst (VI32 0%Z)); FBasic (BOp (SLoad LI32 1057312%Z)); FBasic (BTee 4); FBasic (BConst (VI32 1%Z)); FBasic (BGet 1); FBasic (BConst (VI32 3%Z)); FBasic (BOp (SNum2 (B_int W32 Ishr_u))); FBasic (BOp (SNum2 (B_int W32 Ishl))); FBasic (BTee 1); FBasic (BOp (SNum2 (B_int W32 Iand))); FBrIf 0; FBasic (BConst (VI32 0%Z)); FBasic (BGet 4); FBasic (BGet 1); FBasic (BOp (SNum2 (B_int W32 Ior))); FBasic (BOp (SStore SI32 1057312%Z)); FBasic (BGet 3); FBasic (BSet 1); FBr 1; FEnd; FBasic (BGet 3); FBasic (BOp (SLoad LI32 8%Z)); FBasic (BSet 1); FEnd; FBasic (BGet 1); FBasic (BGet 0); FBasic (BOp (SStore SI32 12%Z)); FBasic (BGet 3); FBasic (BGet 0); FBasic (BOp (SStore SI32 8%Z)); FBasic (BGet 0); FBasic (BGet 3); FBasic (BOp (SStore SI32 12%Z)); FBasic (BGet 0); FBasic (BGet 1); FBasic (BOp (SStore SI32 8%Z)); FReturn; FEnd; FBasic (BConst (VI32 31%Z)); FBasic (BSet 3); FBlock false [] []; FBasic (BGet 1); FBasic (BConst (VI32 16777215%Z)); FBasic (BOp (SNum2 (B_irel W32 Igt_u))); FBrIf 0; FBasic (BGet 1); FBasic (BConst (VI32 38%Z)); FBasic (BGet 1); FBasic (BConst (VI32 8%Z)); FBasic (BOp (SNum2 (B_int W32 Ishr_u))); FBasic (BOp (SNum1 (U_int W32 Iclz))); FBasic (BTee 3); FBasic (BOp (SNum2 (B_int W32 Isub))); FBasic (BOp (SNum2 (B_int W32 Ishr_u))); FBasic (BConst (VI32 1%Z)); FBasic (BOp (SNum2 (B_int W32 Iand))); FBasic (BGet 3); FBasic (BConst (VI32 1%Z)); FBasic (BOp (SNum2 (B_int W32 Ishl))); FBasic (BOp (SNum2 (B_int W32 Isub))); FBasic (BConst (VI32 62%Z)); FBasic (BOp (SNum2 (B_int W32 Iadd))); FBasic (BSet 3); FEnd; FBasic (BGet 0); FBasic (BGet 3); FBasic (BOp (SStore SI32 28%Z)); FBasic (BGet 0); FBasic (BConst (VI64 0%Z)); FBasic (BOp (SStore SI64 16%Z)); FBasic (BGet 3); FBasic (BConst (VI32 2%Z)); FBasic (BOp (SNum2 (B_int W32 Ishl))); FBasic (BConst (VI32 1057616%Z)); FBasic (BOp (SNum2 (B_int W32 Iadd))); FBasic (BSet 4); FBlock false [] []; FBasic (BConst (VI32 0%Z)); FBasic (BOp (SLoad LI32 1057316%Z)); FBasic (BTee 5); FBasic (BConst (VI32 1%Z)); FBasic (BGet 3); FBasic (BOp (SNum2 (B_int W32 Ishl))); FBasic (BTee 2); FBasic (BOp (SNum2 (B_int W32 Iand))); FBrIf 0; FBasic (BGet 4); FBasic (BGet 0); FBasic (BOp (SStore SI32 0%Z)); FBasic (BConst (VI32 0%Z)); FBasic (BGet 5); FBasic (BGet 2); FBasic (BOp (SNum2 (B_int W32 Ior))); FBasic (BOp (SStore SI32 1057316%Z)); FBasic (BGet 0); FBasic (BGet 4); FBasic (BOp (SStore SI32 24%Z)); FBasic (BGet 0); FBasic (BGet 0); FBasic (BOp (SStore SI32 8%Z)); FBasic (BGet 0); FBasic (BGet 0); FBasic (BOp (SStore SI32 12%Z)); FReturn; FEnd; FBasic (BGet 1); FBasic (BConst (VI32 0%Z)); FBasic (BConst (VI32 25%Z)); FBasic (BGet 3); FBasic (BConst (VI32 1%Z)); FBasic (BOp (SNum2 (B_int W32 Ishr_u))); FBasic (BOp (SNum2 (B_int W32 Isub))); FBasic (BGet 3); FBasic (BConst (VI32 31%Z)); FBasic (BOp (SNum2 (B_irel W32 Ieq))); FBasic (BSelect None); FBasic (BOp (SNum2 (B_int W32 Ishl))); FBasic (BSet 3); FBasic (BGet 4); FBasic (BOp (SLoad LI32 0%Z)); FBasic (BSet 5); FBlock false [] []; FBlock true [] []; FBasic (BGet 5); FBasic (BTee 4); FBasic (BOp (SLoad LI32 4%Z)); FBasic (BConst (VI32 (-8)%Z)); FBasic (BOp (SNum2 (B_int W32 Iand))); FBasic (BGet 1); FBasic (BOp (SNum2 (B_irel W32 Ieq))); FBrIf 1; FBasic (BGet 3); FBasic (BConst (VI32 29%Z)); FBasic (BOp (SNum2 (B_int W32 Ishr_u))); FBasic (BSet 5); FBasic (BGet 3); FBasic (BConst (VI32 1%Z)); FBasic (BOp (SNum2 (B_int W32 Ishl))); FBasic (BSet 3); FBasic (BGet 4); FBasic (BGet 5); FBasic (BConst (VI32 4%Z)); FBasic (BOp (SNum2 (B_int W32 Iand))); FBasic (BOp (SNum2 (B_int W32 Iadd))); FBasic (BConst (VI32 16%Z)); FBasic (BOp (SNum2 (B_int W32 Iadd))); FBasic (BTee 2); FBasic (BOp (SLoad LI32 0%Z)); FBasic (BTee 5); FBrIf 0; FEnd; FBasic (BGet 2); FBasic (BGet 0); FBasic (BOp (SStore SI32 0%Z)); FBasic (BGet 0); FBasic (BGet 4); FBasic (BOp (SStore SI32 24%Z)); FBasic (BGet 0); FBasic (BGet 0); FBasic (BOp (SStore SI32 12%Z)); FBasic (BGet 0); FBasic (BGet 0); FBasic (BOp (SStore SI32 8%Z)); FReturn; FEnd; FBasic (BGet 4); FBasic (BOp (SLoad LI32 8%Z)); FBasic (BTee 1); FBasic (BGet 0); FBasic (BOp (SStore SI32 12%Z)); FBasic (BGet 4); FBasic (BGet 0); FBasic (BOp (SStore SI32 8%Z)); FBasic (BGet 0); FBasic (BConst (VI32 0%Z)); FBasic (BOp (SStore SI32 24%Z)); FBasic (BGet 0); FBasic (BGet 4); FBasic (BOp (SStore SI32 12%Z)); FBasic (BGet 0); FBasic (BGet 1); FBasic (BOp (SStore SI32 8%Z)); FEnd; FEnd]; b_bad := false |};
    PCode {| b_locals := [TI32; TI32]; b_badlocals := false; b_ops := [FBlock false [] []; FBlock false [] []; FBlock false [] []; FBasic (BGet 1); FBasic (BConst (VI32 16%Z)); FBasic (BOp (SNum2 (B_irel W32 Ine))); FBrIf 0; FBasic (BGet 2); FCall 113; FBasic (BSet 1); FBr 1; FEnd; FBasic (BConst (VI32 28%Z)); FBasic (BSet 3); FBasic (BGet 1); FBasic (BConst (VI32 4%Z)); FBasic (BOp (SNum2 (B_irel W32 Ilt_u))); FBrIf 1; FBasic (BGet 1); FBasic (BConst (VI32 3%Z)); FBasic (BOp (SNum2 (B_int W32 Iand))); FBrIf 1; FBasic (BGet 1); FBasic (BConst (VI32 2%Z)); FBasic (BOp (SNum2 (B_int W32 Ishr_u))); FBasic (BTee 4); FBasic (BGet 4); FBasic (BConst (VI32 (-1)%Z)); FBasic (BOp (SNum2 (B_int W32 Iadd))); FBasic (BOp (SNum2 (B_int W32 Iand))); FBrIf 1; FBlock false [] []; FBasic (BConst (VI32 (-64)%Z)); FBasic (BGet 1); FBasic (BOp (SNum2 (B_int W32 Isub))); FBasic (BGet 2); FBasic (BOp (SNum2 (B_irel W32 Ige_u))); FBrIf 0; FBasic (BConst (VI32 48%Z)); FReturn; FEnd; FBasic (BGet 1); FBasic (BConst (VI32 16%Z)); FBasic (BGet 1); FBasic (BConst (VI32 16%Z)); FBasic (BOp (SNum2 (B_irel W32 Igt_u))); FBasic (BSelect None); FBasic (BGet 2); FCall 121; FBasic (BSet 1); FEnd; FBlock false [] []; FBasic (BGet 1); FBrIf 0; FBasic (BConst (VI32 48%Z)); FReturn; FEnd; FBasic (BGet 0); FBasic (BGet 1); FBasic (BOp (SStore SI32 0%Z)); FBasic (BConst (VI32 0%Z)); FBasic (BSet 3); FEnd; FBasic (BGet 3); FEnd]; b_bad := false |};
    PCode {| b_locals := [TI32; TI32; TI32; TI32; TI32]; b_badlocals := false; b_ops := [FBlock false [] []; FBlock false [] []; FBasic (BGet 0); FBasic (BConst (VI32 16%Z)); FBasic (BGet 0); FBasic (BConst (VI32 16%Z)); FBasic (BOp (SNum2 (B_irel W32 Igt_u))); FBasic (BSelect None); FBasic (BTee 2); FBasic (BGet 2); FBasic (BConst (VI32 (-1)%Z)); FBasic (BOp (SNum2 (B_int W32 Iadd))); FBasic (BOp (SNum2 (B_int W32 Iand))); FBrIf 0; FBasic (BGet 2); FBasic (BSet 0); FBr 1; FEnd; FBasic (BConst (VI32 32%Z)); FBasic (BSet 3); FBlock true [] []; FBasic (BGet 3); FBasic (BTee 0); FBasic (BConst (VI32 1%Z)); FBasic (BOp (SNum2 (B_int W32 Ishl))); FBasic (BSet 3); FBasic (BGet 0); FBasic (BGet 2); FBasic (BOp (SNum2 (B_irel W32 Ilt_u))); FBrIf 0; FEnd; FEnd; FBlock false [] []; FBasic (BConst (VI32 (-64)%Z)); FBasic (BGet 0); FBasic (BOp (SNum2 (B_int W32 Isub))); FBasic (BGet 1); FBasic (BOp (SNum2 (B_irel W32 Igt_u))); FBrIf 0; FBasic (BConst (VI32 0%Z)); FBasic (BConst (VI32 48%Z)); FBasic (BOp (SStore SI32 1057808%Z)); FBasic (BConst (VI32 0%Z)); FReturn; FEnd; FBlock false [] []; FBasic (BGet 0); FBasic (BConst (VI32 16%Z)); FBasic (BGet 1); FBasic (BConst (VI32 19%Z)); FBasic (BOp (SNum2 (B_int W32 Iadd))); FBasic (BConst (VI32 (-16)%Z)); FBasic (BOp (SNum2 (B_int W32 Iand))); FBasic (BGet 1); FBasic (BConst (VI32 11%Z)); FBasic (BOp (SNum2 (B_irel W32 Ilt_u))); FBasic (BSelect None); FBasic (BTee 1); FBasic (BOp (SNum2 (B_int W32 Iadd))); FBasic (BConst (VI32 12%Z)); FBasic (BOp (SNum2 (B_int W32 Iadd))); FCall 113; FBasic (BTee 3); FBrIf 0; FBasic (BConst (VI32 0%Z)); FReturn; FEnd; FBasic (BGet 3); FBasic (BConst (VI32 (-8)%Z)); FBasic (BOp (SNum2 (B_int W32 Iadd))); FBasic (BSet 2); FBlock false [] []; FBlock false [] []; FBasic (BGet 0); FBasic (BConst (VI32 (-1)%Z)); FBasic (BOp (SNum2 (B_int W32 Iadd))); FBasic (BGet 3); FBasic (BOp (SNum2 (B_int W32 Iand))); FBrIf 0; FBasic (BGet 2); FBasic (BSet 0); FBr 1; FEnd; FBasic (BGet 3); FBasic (BConst (VI32 (-4)%Z)); FBasic (BOp (SNum2 (B_int W32 Iadd))); FBasic (BTee 4); FBasic (BOp (SLoad LI32 0%Z)); FBasic (BTee 5); FBasic (BConst (VI32 (-8)%Z)); FBasic (BOp (SNum2 (B_int W32 Iand))); FBasic (BGet 3); FBasic (BGet 0); FBasic (BOp (SNum2 (B_int W32 Iadd))); FBasic (BConst (VI32 (-1)%Z)); FBasic (BOp (SNum2 (B_int W32 Iadd))); FBasic (BConst (VI32 0%Z)); FBasic (BGet 0); FBasic (BOp (SNum2 (B_int W32 Isub))); FBasic (BOp (SNum2 (B_int W32 Iand))); FBasic (BConst (VI32 (-8)%Z)); FBasic (BOp (SNum2 (B_int W32 Iadd))); FBasic (BTee 3); FBasic (BConst (VI32 0%Z)); FBasic (BGet 0); FBasic (BGet 3); FBasic (BGet 2); FBasic (BOp (SNum2 (B_int W32 Isub))); FBasic (BConst (VI32 15%Z)); FBasic (BOp (SNum2 (B_irel W32 Igt_u))); FBasic (BSelect None); FBasic (BOp (SNum2 (B_int W32 Iadd))); FBasic (BTee 0); FBasic (BGet 2); FBasic (BOp (SNum2 (B_int W32 Isub))); FBasic (BTee 3); FBasic (BOp (SNum2 (B_int W32 Isub))); FBasic (BSet 6); FBlock false [] []; FBasic (BGet 5); FBasic (BConst (VI32 3%Z)); FBasic (BOp (SNum2 (B_int W32 Iand))); FBrIf 0; FBasic (BGet 0); FBasic (BGet 6); FBasic (BOp (SStore SI32 4%Z)); FBasic (BGet 0); FBasic (BGet 2); FBasic (BOp (SLoad LI32 0%Z)); FBasic (BGet 3); FBasic (BOp (SNum2 (B_int W32 Iadd))); FBasic (BOp (SStore SI32 0%Z)); FBr 1; FEnd; FBasic (BGet 0); FBasic (BGet 6); FBasic (BGet 0); FBasic (BOp (SLoad LI32 4%Z)); FBasic (BConst (VI32 1%Z)); FBasic (BOp (SNum2 (B_int W32 Iand))); FBasic (BOp (SNum2 (B_int W32 Ior))); FBasic (BConst (VI32 2%Z)); FBasic (BOp (SNum2 (B_int W32 Ior))); FBasic (BOp (SStore SI32 4%Z)); FBasic (BGet 0); FBasic (BGet 6); FBasic (BOp (SNum2 (B_int W32 Iadd))); FBasic (BTee 6); FBasic (BGet 6); FBasic (BOp (SLoad LI32 4%Z)); FBasic (BConst (VI32 1%Z)); FBasic (BOp (SNum2 (B_int W32 Ior))); FBasic (BOp (SStore SI32 4%Z)); FBasic (BGet 4); FBasic (BGet 3); FBasic (BGet 4); FBasic (BOp (SLoad LI32 0%Z)); FBasic (BConst (VI32 1%Z)); FBasic (BOp (SNum2 (B_int W32 Iand))); FBasic (BOp (SNum2 (B_int W32 Ior))); FBasic (BConst (VI32 2%Z)); FBasic (BOp (SNum2 (B_int W32 Ior))); FBasic (BOp (SStore SI32 0%Z)); FBasic (BGet 2); FBasic (BGet 3); FBasic (BOp (SNum2 (B_int W32 Iadd))); FBasic (BTee 6); FBasic (BGet 6); FBasic (BOp (SLoad LI32 4%Z)); FBasic (BConst (VI32 1%Z)); FBasic (BOp (SNum2 (B_int W32 Ior))); FBasic (BOp (SStore SI32 4%Z)); FBasic (BGet 2); FBasic (BGet 3); FCall 119; FEnd; FBlock false [] []; FBasic (BGet 0); FBasic (BOp (SLoad LI32 4%Z)); FBasic (BTee 3); FBasic (BConst (VI32 3%Z)); FBasic (BOp (SNum2 (B_int W32 Iand))); FBasic (BOp (SNum1 (U_eqz W32))); FBrIf 0; FBasic (BGet 3); FBasic (BConst (VI32 (-8)%Z)); FBasic (BOp (SNum2 (B_int W32 Iand))); FBasic (BTee 2); FBasic (BGet 1); FBasic (BConst (VI32 16%Z)); FBasic (BOp (SNum2 (B_int W32 Iadd))); FBasic (BOp (SNum2 (B_irel W32 Ile_u))); FBrIf 0; FBasic (BGet 0); FBasic (BGet 1); FBasic (BGet 3); FBasic (BConst (VI32 1%Z)); FBasic (BOp (SNum2 (B_int W32 Iand))); FBasic (BOp (SNum2 (B_int W32 Ior))); FBasic (BConst (VI32 2%Z)); FBasic (BOp (SNum2 (B_int W32 Ior))); FBasic (BOp (SStore SI32 4%Z)); FBasic (BGet 0); FBasic (BGet 1); FBasic (BOp (SNum2 (B_int W32 Iadd))); FBasic (BTee 3); FBasic (BGet 2); FBasic (BGet 1); FBasic (BOp (SNum2 (B_int W32 Isub))); FBasic (BTee 1); FBasic (BConst (VI32 3%Z)); FBasic (BOp (SNum2 (B_int W32 Ior))); FBasic (BOp (SStore SI32 4%Z)); FBasic (BGet 0); FBasic (BGet 2); FBasic (BOp (SNum2 (B_int W32 Iadd))); FBasic (BTee 2); FBasic (BGet 2); FBasic (BOp (SLoad LI32 4%Z)); FBasic (BConst (VI32 1%Z)); FBasic (BOp (SNum2 (B_int W32 Ior))); FBasic (BOp (SStore SI32 4%Z)); FBasic (BGet 3); FBasic (BGet 1); FCall 119; FEnd; FBasic (BGet 0); FBasic (BConst (VI32 8%Z)); FBasic (BOp (SNum2 (B_int W32 Iadd))); FEnd]; b_bad := false |};
    PCode {| b_locals := []; b_badlocals := false; b_ops := [FBasic (BGet 0); FCall 127; FUnreachable; FEnd]; b_bad := false |};
    PCode {| b_locals := []; b_badlocals := false; b_ops := [FBlock false [] []; FBasic (BConst (VI32 0%Z)); FBasic (BOp (SLoad LI32 1057184%Z)); FBasic (BConst (VI32 (-1)%Z)); FBasic (BOp (SNum2 (B_irel W32 Ine))); FBrIf 0; FCall 124; FEnd; FEnd]; b_bad := false |};
    PCode {| b_locals := [TI32; TI32; TI32]; b_badlocals := false; b_ops := [FBasic (BOp (SGlobalGet TI32 0)); FBasic (BConst (VI32 16%Z)); FBasic (BOp (SNum2 (B_int W32 Isub))); FBasic (BTee 0); FBasic (BOp (SGlobalSet TI32 0)); FBlock false [] []; FBlock false [] []; FBasic (BGet 0); FBasic (BConst (VI32 12%Z)); FBasic (BOp (SNum2 (B_int W32 Iadd))); FBasic (BGet 0); FBasic (BConst (VI32 8%Z)); FBasic (BOp (SNum2 (B_int W32 Iadd))); FCall 126; FBrIf 0; FBlock false [] []; FBasic (BGet 0); FBasic (BOp (SLoad LI32 12%Z)); FBasic (BTee 1); FBrIf 0; FBasic (BConst (VI32 1057812%Z)); FBasic (BSet 1); FBr 2; FEnd; FBlock false [] []; FBlock false [] []; FBasic (BGet 1); FBasic (BConst (VI32 1%Z)); FBasic (BOp (SNum2 (B_int W32 Iadd))); FBasic (BTee 1); FBasic (BOp (SNum1 (U_eqz W32))); FBrIf 0; FBasic (BGet 0); FBasic (BOp (SLoad LI32 8%Z)); FCall 112; FBasic (BTee 2); FBasic (BOp (SNum1 (U_eqz W32))); FBrIf 0; FBasic (BGet 1); FBasic (BConst (VI32 4%Z)); FCall 117; FBasic (BTee 1); FBrIf 1; FBasic (BGet 2); FCall 115; FEnd; FBasic (BConst (VI32 70%Z)); FCall 122; FUnreachable; FEnd; FBasic (BGet 1); FBasic (BGet 2); FCall 125; FBasic (BOp (SNum1 (U_eqz W32))); FBrIf 1; FBasic (BGet 2); FCall 115; FBasic (BGet 1); FCall 115; FEnd; FBasic (BConst (VI32 71%Z)); FCall 122; FUnreachable; FEnd; FBasic (BConst (VI32 0%Z)); FBasic (BGet 1); FBasic (BOp (SStore SI32 1057184%Z)); FBasic (BGet 0); FBasic (BConst (VI32 16%Z)); FBasic (BOp (SNum2 (B_int W32 Iadd))); FBasic (BOp (SGlobalSet TI32 0)); FEnd]; b_bad := false |};
    PCode {| b_locals := []; b_badlocals := false; b_ops := [FBasic (BGet 0); FBasic (BGet 1); FCall 2; FBasic (BConst (VI32 65535%Z)); FBasic (BOp (SNum2 (B_int W32 Iand))); FEnd]; b_bad := false |};
    PCode {| b_locals := []; b_badlocals := false; b_ops := [FBasic (BGet 0); FBasic (BGet 1); FCall 3; FBasic (BConst (VI32 65535%Z)); FBasic (BOp (SNum2 (B_int W32 Iand))); FEnd]; b_bad := false |};
    PCode {| b_locals := []; b_badlocals := false; b_ops := [FBasic (BGet 0); FCall 4; FUnreachable; FEnd]; b_bad := false |};
    PCode {| b_locals := []; b_badlocals := false; b_ops := [FUnreachable; FEnd]; b_bad := false |};
    PCode {| b_locals := [TI32]; b_badlocals := false; b_ops := [FBasic (BConst (VI32 0%Z)); FBasic (BOp (SLoad LI32 1057188%Z)); FBasic (BSet 2); FBlock false [] []; FBlock false [] []; FBasic (BGet 0); FBrIf 0; FBasic (BGet 2); FCall 139; FBasic (BTee 0); FBrIf 1; FBasic (BConst (VI32 0%Z)); FBasic (BConst (VI32 48%Z)); FBasic (BOp (SStore SI32 1057808%Z)); FBasic (BConst (VI32 0%Z)); FReturn; FEnd; FBlock false [] []; FBasic (BGet 2); FCall 140; FBasic (BConst (VI32 1%Z)); FBasic (BOp (SNum2 (B_int W32 Iadd))); FBasic (BGet 1); FBasic (BOp (SNum2 (B_irel W32 Ile_u))); FBrIf 0; FBasic (BConst (VI32 0%Z)); FBasic (BConst (VI32 68%Z)); FBasic (BOp (SStore SI32 1057808%Z)); FBasic (BConst (VI32 0%Z)); FReturn; FEnd; FBasic (BGet 0); FBasic (BGet 2); FCall 138; FBasic (BSet 0); FEnd; FBasic (BGet 0); FEnd]; b_bad := false |};
    PCode {| b_locals := []; b_badlocals := false; b_ops := [FBlock false [] []; FBasic (BGet 0); FBrIf 0; FBasic (BOp SMemSize); FBasic (BConst (VI32 16%Z)); FBasic (BOp (SNum2 (B_int W32 Ishl))); FReturn; FEnd; FBlock false [] []; FBasic (BGet 0); FBasic (BConst (VI32 65535%Z)); FBasic (BOp (SNum2 (B_int W32 Iand))); FBrIf 0; FBasic (BGet 0); FBasic (BConst (VI32 (-1)%Z)); FBasic (BOp (SNum2 (B_irel W32 Ile_s))); FBrIf 0; FBlock false [] []; FBasic (BGet 0); FBasic (BConst (VI32 16%Z)); FBasic (BOp (SNum2 (B_int W32 Ishr_u))); FBasic (BOp SMemGrow); FBasic (BTee 0); FBasic (BConst (VI32 (-1)%Z)); FBasic (BOp (SNum2 (B_irel W32 Ine))); FBrIf 0; FBasic (BConst (VI32 0%Z)); FBasic (BConst (VI32 48%Z)); FBasic (BOp (SStore SI32 1057808%Z)); FBasic (BConst (VI32 (-1)%Z)); FReturn; FEnd; FBasic (BGet 0); FBasic (BConst (VI32 16%Z)); FBasic (BOp (SNum2 (B_int W32 Ishl))); FReturn; FEnd; FCall 128; FUnreachable; FEnd]; b_bad := false |};
    PCode {| b_locals := [TI32; TI32; TI32; TI32]; b_badlocals := false; b_ops := [FCall 123; FBlock false [] []; FBasic (BGet 0); FBasic (BConst (VI32 61%Z)); FCall 136; FBasic (BTee 1); FBasic (BGet 0); FBasic (BOp (SNum2 (B_irel W32 Ine))); FBrIf 0; FBasic (BConst (VI32 0%Z)); FReturn; FEnd; FBasic (BConst (VI32 0%Z)); FBasic (BSet 2); FBlock false [] []; FBasic (BGet 0); FBasic (BGet 1); FBasic (BGet 0); FBasic (BOp (SNum2 (B_int W32 Isub))); FBasic (BTee 3); FBasic (BOp (SNum2 (B_int W32 Iadd))); FBasic (BOp (SLoad LI32_8u 0%Z)); FBrIf 0; FBasic (BConst (VI32 0%Z)); FBasic (BOp (SLoad LI32 1057184%Z)); FBasic (BTee 4); FBasic (BOp (SNum1 (U_eqz W32))); FBrIf 0; FBasic (BGet 4); FBasic (BOp (SLoad LI32 0%Z)); FBasic (BTee 1); FBasic (BOp (SNum1 (U_eqz W32))); FBrIf 0; FBasic (BGet 4); FBasic (BConst (VI32 4%Z)); FBasic (BOp (SNum2 (B_int W32 Iadd))); FBasic (BSet 4); FBlock false [] []; FBlock true [] []; FBlock false [] []; FBasic (BGet 0); FBasic (BGet 1); FBasic (BGet 3); FCall 141; FBrIf 0; FBasic (BGet 1); FBasic (BGet 3); FBasic (BOp (SNum2 (B_int W32 Iadd))); FBasic (BTee 1); FBasic (BOp (SLoad LI32_8u 0%Z)); FBasic (BConst (VI32 61%Z)); FBasic (BOp (SNum2 (B_irel W32 Ieq))); FBrIf 2; FEnd; FBasic (BGet 4); FBasic (BOp (SLoad LI32 0%Z)); FBasic (BSet 1); FBasic (BGet 4); FBasic (BConst (VI32 4%Z)); FBasic (BOp (SNum2 (B_int W32 Iadd))); FBasic (BSet 4); FBasic (BGet 1); FBrIf 0; FBr 2; FEnd; FEnd; FBasic (BGet 1); FBasic (BConst (VI32 1%Z)); FBasic (BOp (SNum2 (B_int W32 Iadd))); FBasic (BSet 2); FEnd; FBasic (BGet 2); FEnd]; b_bad := false |};
    PCode {| b_locals := []; b_badlocals := false; b_ops := [FEnd]; b_bad := false |};
    PCode {| b_locals := []; b_badlocals := false; b_ops := [FCall 132; FCall 132; FEnd]; b_bad := false |};
    PCode {| b_locals := [TI32; TI32; TI32; TI32]; b_badlocals := false; b_ops := [FBlock false [] []; FBlock false [] []; FBlock false [] []; FBasic (BGet 2); FBasic (BConst (VI32 32%Z)); FBasic (BOp (SNum2 (B_irel W32 Igt_u))); FBrIf 0; FBasic (BGet 1); FBasic (BConst (VI32 3%Z)); FBasic (BOp (SNum2 (B_int W32 Iand))); FBasic (BOp (SNum1 (U_eqz W32))); FBrIf 1; FBasic (BGet 2); FBasic (BOp (SNum1 (U_eqz W32))); FBrIf 1; FBasic (BGet 0); FBasic (BGet 1); FBasic (BOp (SLoad LI32_8u 0%Z)); FBasic (BOp (SStore SI32_8 0%Z)); FBasic (BGet 2); FBasic (BConst (VI32 (-1)%Z)); FBasic (BOp (SNum2 (B_int W32 Iadd))); FBasic (BSet 3); FBasic (BGet 0); FBasic (BConst (VI32 1%Z)); FBasic (BOp (SNum2 (B_int W32 Iadd))); FBasic (BSet 4); FBasic (BGet 1); FBasic (BConst (VI32 1%Z)); FBasic (BOp (SNum2 (B_int W32 Iadd))); FBasic (BTee 5); FBasic (BConst (VI32 3%Z)); FBasic (BOp (SNum2 (B_int W32 Iand))); FBasic (BOp (SNum1 (U_eqz W32))); FBrIf 2; FBasic (BGet 3); FBasic (BOp (SNum1 (U_eqz W32))); FBrIf 2; FBasic (BGet 0); FBasic (BGet 1); FBasic (BOp (SLoad LI32_8u 1%Z)); FBasic (BOp (SStore SI32_8 1%Z)); FBasic (BGet 2); FBasic (BConst (VI32 (-2)%Z)); FBasic (BOp (SNum2 (B_int W32 Iadd))); FBasic (BSet 3); FBasic (BGet 0); FBasic (BConst (VI32 2%Z)); FBasic (BOp (SNum2 (B_int W32 Iadd))); FBasic (BSet 4); FBasic (BGet 1); FBasic (BConst (VI32 2%Z)); FBasic (BOp (SNum2 (B_int W32 Iadd))); FBasic (BTee 5); FBasic (BConst (VI32 3%Z)); FBasic (BOp (SNum2 (B_int W32 Iand))); FBasic (BOp (SNum1 (U_eqz W32))); FBrIf 2; FBasic (BGet 3); FBasic (BOp (SNum1 (U_eqz W32))); FBrIf 2; FBasic (BGet 0); FBasic (BGet 1); FBasic (BOp (SLoad LI32_8u 2%Z)); FBasic (BOp (SStore SI32_8 2%Z)); FBasic (BGet 2); FBasic (BConst (VI32 (-3)%Z)); FBasic (BOp (SNum2 (B_int W32 Iadd))); FBasic (BSet 3); FBasic (BGet 0); FBasic (BConst (VI32 3%Z)); FBasic (BOp (SNum2 (B_int W32 Iadd))); FBasic (BSet 4); FBasic (BGet 1); FBasic (BConst (VI32 3%Z)); FBasic (BOp (SNum2 (B_int W32 Iadd))); FBasic (BTee 5); FBasic (BConst (VI32 3%Z)); FBasic (BOp (SNum2 (B_int W32 Iand))); FBasic (BOp (SNum1 (U_eqz W32))); FBrIf 2; FBasic (BGet 3); FBasic (BOp (SNum1 (U_eqz W32))); FBrIf 2; FBasic (BGet 0); FBasic (BGet 1); FBasic (BOp (SLoad LI32_8u 3%Z)); FBasic (BOp (SStore SI32_8 3%Z)); FBasic (BGet 2); FBasic (BConst (VI32 (-4)%Z)); FBasic (BOp (SNum2 (B_int W32 Iadd))); FBasic (BSet 3); FBasic (BGet 0); FBasic (BConst (VI32 4%Z)); FBasic (BOp (SNum2 (B_int W32 Iadd))); FBasic (BSet 4); FBasic (BGet 1); FBasic (BConst (VI32 4%Z)); FBasic (BOp (SNum2 (B_int W32 Iadd))); FBasic (BSet 5); FBr 2; FEnd; FBasic (BGet 0); FBasic (BGet 1); FBasic (BGet 2); FBasic (BOp SMemCopy); FBasic (BGet 0); FReturn; FEnd; FBasic (BGet 2); FBasic (BSet 3); FBasic (BGet 0); FBasic (BSet 4); FBasic (BGet 1); FBasic (BSet 5); FEnd; FBlock false [] []; FBlock false [] []; FBasic (BGet 4); FBasic (BConst (VI32 3%Z)); FBasic (BOp (SNum2 (B_int W32 Iand))); FBasic (BTee 2); FBrIf 0; FBlock false [] []; FBlock false [] []; FBasic (BGet 3); FBasic (BConst (VI32 16%Z)); FBasic (BOp (SNum2 (B_irel W32 Ige_u))); FBrIf 0; FBasic (BGet 3); FBasic (BSet 2); FBr 1; FEnd; FBlock false [] []; FBasic (BGet 3); FBasic (BConst (VI32 (-16)%Z)); FBasic (BOp (SNum2 (B_int W32 Iadd))); FBasic (BTee 2); FBasic (BConst (VI32 16%Z)); FBasic (BOp (SNum2 (B_int W32 Iand))); FBrIf 0; FBasic (BGet 4); FBasic (BGet 5); FBasic (BOp (SLoad LI64 0%Z)); FBasic (BOp (SStore SI64 0%Z)); FBasic (BGet 4); FBasic (BGet 5); FBasic (BOp (SLoad LI64 8%Z)); FBasic (BOp (SStore SI64 8%Z)); FBasic (BGet 4); FBasic (BConst (VI32 16%Z)); FBasic (BOp (SNum2 (B_int W32 Iadd))); FBasic (BSet 4); FBasic (BGet 5); FBasic (BConst (VI32 16%Z)); FBasic (BOp (SNum2 (B_int W32 Iadd))); FBasic (BSet 5); FBasic (BGet 2); FBasic (BSet 3); FEnd; FBasic (BGet 2); FBasic (BConst (VI32 16%Z)); FBasic (BOp (SNum2 (B_irel W32 Ilt_u))); FBrIf 0; FBasic (BGet 3); FBasic (BSet 2); FBlock true [] []; FBasic (BGet 4); FBasic (BGet 5); FBasic (BOp (SLoad LI64 0%Z)); FBasic (BOp (SStore SI64 0%Z)); FBasic (BGet 4); FBasic (BGet 5); FBasic (BOp (SLoad LI64 8%Z)); FBasic (BOp (SStore SI64 8%Z)); FBasic (BGet 4); FBasic (BGet 5); FBasic (BOp (SLoad LI64 16%Z)); FBasic (BOp (SStore SI64 16%Z)); FBasic (BGet 4); FBasic (BGet 5); FBasic (BOp (SLoad LI64 24%Z)); FBasic (BOp (SStore SI64 24%Z)); FBasic (BGet 4); FBasic (BConst (VI32 32%Z)); FBasic (BOp (SNum2 (B_int W32 Iadd))); FBasic (BSet 4); FBasic (BGet 5); FBasic (BConst (VI32 32%Z)); FBasic (BOp (SNum2 (B_int W32 Iadd))); FBasic (BSet 5); FBasic (BGet 2); FBasic (BConst (VI32 (-32)%Z)); FBasic (BOp (SNum2 (B_int W32 Iadd))); FBasic (BTee 2); FBasic (BConst (VI32 15%Z)); FBasic (BOp (SNum2 (B_irel W32 Igt_u))); FBrIf 0; FEnd; FEnd; FBlock false [] []; FBasic (BGet 2); FBasic (BConst (VI32 8%Z)); FBasic (BOp (SNum2 (B_irel W32 Ilt_u))); FBrIf 0; FBasic (BGet 4); FBasic (BGet 5); FBasic (BOp (SLoad LI64 0%Z)); FBasic (BOp (SStore SI64 0%Z)); FBasic (BGet 5); FBasic (BConst (VI32 8%Z)); FBasic (BOp (SNum2 (B_int W32 Iadd))); FBasic (BSet 5); FBasic (BGet 4); FBasic (BConst (VI32 8%Z)); FBasic (BOp (SNum2 (B_int W32 Iadd))); FBasic (BSet 4); FEnd; FBlock false [] []; FBasic (BGet 2); FBasic (BConst (VI32 4%Z)); FBasic (BOp (SNum2 (B_int W32 Iand))); FBasic (BOp (SNum1 (U_eqz W32))); FBrIf 0; FBasic (BGet 4); FBasic (BGet 5); FBasic (BOp (SLoad LI32 0%Z)); FBasic (BOp (SStore SI32 0%Z)); FBasic (BGet 5); FBasic (BConst (VI32 4%Z)); FBasic (BOp (SNum2 (B_int W32 Iadd))); FBasic (BSet 5); FBasic (BGet 4); FBasic (BConst (VI32 4%Z)); FBasic (BOp (SNum2 (B_int W32 Iadd))); FBasic (BSet 4); FEnd; FBlock false [] []; FBasic (BGet 2); FBasic (BConst (VI32 2%Z)); FBasic (BOp (SNum2 (B_int W32 Iand))); FBasic (BOp (SNum1 (U_eqz W32))); FBrIf 0; FBasic (BGet 4); FBasic (BGet 5); FBasic (BOp (SLoad LI32_16u 0%Z)); FBasic (BOp (SStore SI32_16 0%Z)); FBasic (BGet 4); FBasic (BConst (VI32 2%Z)); FBasic (BOp (SNum2 (B_int W32 Iadd))); FBasic (BSet 4); FBasic (BGet 5); FBasic (BConst (VI32 2%Z)); FBasic (BOp (SNum2 (B_int W32 Iadd))); FBasic (BSet 5); FEnd; FBasic (BGet 2); FBasic (BConst (VI32 1%Z)); FBasic (BOp (SNum2 (B_int W32 Iand))); FBasic (BOp (SNum1 (U_eqz W32))); FBrIf 1; FBasic (BGet 4); FBasic (BGet 5); FBasic (BOp (SLoad LI32_8u 0%Z)); FBasic (BOp (SStore SI32_8 0%Z)); FBasic (BGet 0); FReturn; FEnd; FBlock false [] []; FBlock false [] []; FBlock false [] []; FBlock false [] []; FBlock false [] []; FBasic (BGet 3); FBasic (BConst (VI32 32%Z)); FBasic (BOp (SNum2 (B_irel W32 Ilt_u))); FBrIf 0; FBasic (BGet 4); FBasic (BGet 5); FBasic (BOp (SLoad LI32 0%Z)); FBasic (BTee 3); FBasic (BOp (SStore SI32_8 0%Z)); FBlock false [] []; FBlock false [] []; FBasic (BGet 2); FBasic (BConst (VI32 (-1)%Z)); FBasic (BOp (SNum2 (B_int W32 Iadd))); FBrTable [3; 0; 1] 3; FEnd; FBasic (BGet 4); FBasic (BGet 3); FBasic (BConst (VI32 8%Z)); FBasic (BOp (SNum2 (B_int W32 Ishr_u))); FBasic (BOp (SStore SI32_8 1%Z)); FBasic (BGet 4); FBasic (BGet 5); FBasic (BConst (VI32 6%Z)); FBasic (BOp (SNum2 (B_int W32 Iadd))); FBasic (BOp (SLoad LI64 0%Z)); FBasic (BOp (SStore SI64 6%Z)); FBasic (BGet 4); FBasic (BGet 5); FBasic (BOp (SLoad LI32 4%Z)); FBasic (BConst (VI32 16%Z)); FBasic (BOp (SNum2 (B_int W32 Ishl))); FBasic (BGet 3); FBasic (BConst (VI32 16%Z)); FBasic (BOp (SNum2 (B_int W32 Ishr_u))); FBasic (BOp (SNum2 (B_int W32 Ior))); FBasic (BOp (SStore SI32 2%Z)); FBasic (BGet 4); FBasic (BConst (VI32 18%Z)); FBasic (BOp (SNum2 (B_int W32 Iadd))); FBasic (BSet 2); FBasic (BGet 5); FBasic (BConst (VI32 18%Z)); FBasic (BOp (SNum2 (B_int W32 Iadd))); FBasic (BSet 1); FBasic (BConst (VI32 14%Z)); FBasic (BSet 6); FBasic (BGet 5); FBasic (BConst (VI32 14%Z)); FBasic (BOp (SNum2 (B_int W32 Iadd))); FBasic (BOp (SLoad LI32 0%Z)); FBasic (BSet 5); FBasic (BConst (VI32 14%Z)); FBasic (BSet 3); FBr 3; FEnd; FBasic (BGet 4); FBasic (BGet 5); FBasic (BConst (VI32 5%Z)); FBasic (BOp (SNum2 (B_int W32 Iadd))); FBasic (BOp (SLoad LI64 0%Z)); FBasic (BOp (SStore SI64 5%Z)); FBasic (BGet 4); FBasic (BGet 5); FBasic (BOp (SLoad LI32 4%Z)); FBasic (BConst (VI32 24%Z)); FBasic (BOp (SNum2 (B_int W32 Ishl))); FBasic (BGet 3); FBasic (BConst (VI32 8%Z)); FBasic (BOp (SNum2 (B_int W32 Ishr_u))); FBasic (BOp (SNum2 (B_int W32 Ior))); FBasic (BOp (SStore SI32 1%Z)); FBasic (BGet 4); FBasic (BConst (VI32 17%Z)); FBasic (BOp (SNum2 (B_int W32 Iadd))); FBasic (BSet 2); FBasic (BGet 5); FBasic (BConst (VI32 17%Z)); FBasic (BOp (SNum2 (B_int W32 Iadd))); FBasic (BSet 1); FBasic (BConst (VI32 13%Z)); FBasic (BSet 6); FBasic (BGet 5); FBasic (BConst (VI32 13%Z)); FBasic (BOp (SNum2 (B_int W32 Iadd))); FBasic (BOp (SLoad LI32 0%Z)); FBasic (BSet 5); FBasic (BConst (VI32 15%Z)); FBasic (BSet 3); FBr 2; FEnd; FBlock false [] []; FBlock false [] []; FBasic (BGet 3); FBasic (BConst (VI32 16%Z)); FBasic (BOp (SNum2 (B_irel W32 Ige_u))); FBrIf 0; FBasic (BGet 4); FBasic (BSet 2); FBasic (BGet 5); FBasic (BSet 1); FBr 1; FEnd; FBasic (BGet 4); FBasic (BGet 5); FBasic (BOp (SLoad LI32_8u 0%Z)); FBasic (BOp (SStore SI32_8 0%Z)); FBasic (BGet 4); FBasic (BGet 5); FBasic (BOp (SLoad LI32 1%Z)); FBasic (BOp (SStore SI32 1%Z)); FBasic (BGet 4); FBasic (BGet 5); FBasic (BOp (SLoad LI64 5%Z)); FBasic (BOp (SStore SI64 5%Z)); FBasic (BGet 4); FBasic (BGet 5); FBasic (BOp (SLoad LI32_16u 13%Z)); FBasic (BOp (SStore SI32_16 13%Z)); FBasic (BGet 4); FBasic (BGet 5); FBasic (BOp (SLoad LI32_8u 15%Z)); FBasic (BOp (SStore SI32_8 15%Z)); FBasic (BGet 4); FBasic (BConst (VI32 16%Z)); FBasic (BOp (SNum2 (B_int W32 Iadd))); FBasic (BSet 2); FBasic (BGet 5); FBasic (BConst (VI32 16%Z)); FBasic (BOp (SNum2 (B_int W32 Iadd))); FBasic (BSet 1); FEnd; FBasic (BGet 3); FBasic (BConst (VI32 8%Z)); FBasic (BOp (SNum2 (B_int W32 Iand))); FBrIf 2; FBr 3; FEnd; FBasic (BGet 4); FBasic (BGet 3); FBasic (BConst (VI32 16%Z)); FBasic (BOp (SNum2 (B_int W32 Ishr_u))); FBasic (BOp (SStore SI32_8 2%Z)); FBasic (BGet 4); FBasic (BGet 3); FBasic (BConst (VI32 8%Z)); FBasic (BOp (SNum2 (B_int W32 Ishr_u))); FBasic (BOp (SStore SI32_8 1%Z)); FBasic (BGet 4); FBasic (BGet 5); FBasic (BConst (VI32 7%Z)); FBasic (BOp (SNum2 (B_int W32 Iadd))); FBasic (BOp (SLoad LI64 0%Z)); FBasic (BOp (SStore SI64 7%Z)); FBasic (BGet 4); FBasic (BGet 5); FBasic (BOp (SLoad LI32 4%Z)); FBasic (BConst (VI32 8%Z)); FBasic (BOp (SNum2 (B_int W32 Ishl))); FBasic (BGet 3); FBasic (BConst (VI32 24%Z)); FBasic (BOp (SNum2 (B_int W32 Ishr_u))); FBasic (BOp (SNum2 (B_int W32 Ior))); FBasic (BOp (SStore SI32 3%Z)); FBasic (BGet 4); FBasic (BConst (VI32 19%Z)); FBasic (BOp (SNum2 (B_int W32 Iadd))); FBasic (BSet 2); FBasic (BGet 5); FBasic (BConst (VI32 19%Z)); FBasic (BOp (SNum2 (B_int W32 Iadd))); FBasic (BSet 1); FBasic (BConst (VI32 15%Z)); FBasic (BSet 6); FBasic (BGet 5); FBasic (BConst (VI32 15%Z)); FBasic (BOp (SNum2 (B_int W32 Iadd))); FBasic (BOp (SLoad LI32 0%Z)); FBasic (BSet 5); FBasic (BConst (VI32 13%Z)); FBasic (BSet 3); FEnd; FBasic (BGet 4); FBasic (BGet 6); FBasic (BOp (SNum2 (B_int W32 Iadd))); FBasic (BGet 5); FBasic (BOp (SStore SI32 0%Z)); FEnd; FBasic (BGet 2); FBasic (BGet 1); FBasic (BOp (SLoad LI64 0%Z)); FBasic (BOp (SStore SI64 0%Z)); FBasic (BGet 2); FBasic (BConst (VI32 8%Z)); FBasic (BOp (SNum2 (B_int W32 Iadd))); FBasic (BSet 2); FBasic (BGet 1); FBasic (BConst (VI32 8%Z)); FBasic (BOp (SNum2 (B_int W32 Iadd))); FBasic (BSet 1); FEnd; FBlock false [] []; FBasic (BGet 3); FBasic (BConst (VI32 4%Z)); FBasic (BOp (SNum2 (B_int W32 Iand))); FBasic (BOp (SNum1 (U_eqz W32))); FBrIf 0; FBasic (BGet 2); FBasic (BGet 1); FBasic (BOp (SLoad LI32 0%Z)); FBasic (BOp (SStore SI32 0%Z)); FBasic (BGet 2); FBasic (BConst (VI32 4%Z)); FBasic (BOp (SNum2 (B_int W32 Iadd))); FBasic (BSet 2); FBasic (BGet 1); FBasic (BConst (VI32 4%Z)); FBasic (BOp (SNum2 (B_int W32 Iadd))); FBasic (BSet 1); FEnd; FBlock false [] []; FBasic (BGet 3); FBasic (BConst (VI32 2%Z)); FBasic (BOp (SNum2 (B_int W32 Iand))); FBasic (BOp (SNum1 (U_eqz W32))); FBrIf 0; FBasic (BGet 2); FBasic (BGet 1); FBasic (BOp (SLoad LI32_16u 0%Z)); FBasic (BOp (SStore SI32_16 0%Z)); FBasic (BGet 2); FBasic (BConst (VI32 2%Z)); FBasic (BOp (SNum2 (B_int W32 Iadd))); FBasic (BSet 2); FBasic (BGet 1); FBasic (BConst (VI32 2%Z)); FBasic (BOp (SNum2 (B_int W32 Iadd))); FBasic (BSet 1); FEnd; FBasic (BGet 3); FBasic (BConst (VI32 1%Z)); FBasic (BOp (SNum2 (B_int W32 Iand))); FBasic (BOp (SNum1 (U_eqz W32))); FBrIf 0; FBasic (BGet 2); FBasic (BGet 1); FBasic (BOp (SLoad LI32_8u 0%Z)); FBasic (BOp (SStore SI32_8 0%Z)); FEnd; FBasic (BGet 0); FEnd]; b_bad := false |};
    PCode {| b_locals := [TI32; TI32; TI32; TI64]; b_badlocals := false; b_ops := [FBlock false [] []; FBasic (BGet 2); FBasic (BConst (VI32 33%Z)); FBasic (BOp (SNum2 (B_irel W32 Ilt_u))); FBrIf 0; FBasic (BGet 0); FBasic (BGet 1); FBasic (BGet 2); FBasic (BOp SMemFill); FBasic (BGet 0); FReturn; FEnd; FBlock false [] []; FBasic (BGet 2); FBasic (BOp (SNum1 (U_eqz W32))); FBrIf 0; FBasic (BGet 0); FBasic (BGet 1); FBasic (BOp (SStore SI32_8 0%Z)); FBasic (BGet 0); FBasic (BGet 2); FBasic (BOp (SNum2 (B_int W32 Iadd))); FBasic (BTee 3); FBasic (BConst (VI32 (-1)%Z)); FBasic (BOp (SNum2 (B_int W32 Iadd))); FBasic (BGet 1); FBasic (BOp (SStore SI32_8 0%Z)); FBasic (BGet 2); FBasic (BConst (VI32 3%Z)); FBasic (BOp (SNum2 (B_irel W32 Ilt_u))); FBrIf 0; FBasic (BGet 0); FBasic (BGet 1); FBasic (BOp (SStore SI32_8 2%Z)); FBasic (BGet 0); FBasic (BGet 1); FBasic (BOp (SStore SI32_8 1%Z)); FBasic (BGet 3); FBasic (BConst (VI32 (-3)%Z)); FBasic (BOp (SNum2 (B_int W32 Iadd))); FBasic (BGet 1); FBasic (BOp (SStore SI32_8 0%Z)); FBasic (BGet 3); FBasic (BConst (VI32 (-2)%Z)); FBasic (BOp (SNum2 (B_int W32 Iadd))); FBasic (BGet 1); FBasic (BOp (SStore SI32_8 0%Z)); FBasic (BGet 2); FBasic (BConst (VI32 7%Z)); FBasic (BOp (SNum2 (B_irel W32 Ilt_u))); FBrIf 0; FBasic (BGet 0); FBasic (BGet 1); FBasic (BOp (SStore SI32_8 3%Z)); FBasic (BGet 3); FBasic (BConst (VI32 (-4)%Z)); FBasic (BOp (SNum2 (B_int W32 Iadd))); FBasic (BGet 1); FBasic (BOp (SStore SI32_8 0%Z)); FBasic (BGet 2); FBasic (BConst (VI32 9%Z)); FBasic (BOp (SNum2 (B_irel W32 Ilt_u))); FBrIf 0; FBasic (BGet 0); FBasic (BConst (VI32 0%Z)); FBasic (BGet 0); FBasic (BOp (SNum2 (B_int W32 Isub))); FBasic (BConst (VI32 3%Z)); FBasic (BOp (SNum2 (B_int W32 Iand))); FBasic (BTee 4); FBasic (BOp (SNum2 (B_int W32 Iadd))); FBasic (BTee 5); FBasic (BGet 1); FBasic (BConst (VI32 255%Z)); FBasic (BOp (SNum2 (B_int W32 Iand))); FBasic (BConst (VI32 16843009%Z)); FBasic (BOp (SNum2 (B_int W32 Imul))); FBasic (BTee 3); FBasic (BOp (SStore SI32 0%Z)); FBasic (BGet 5); FBasic (BGet 2); FBasic (BGet 4); FBasic (BOp (SNum2 (B_int W32 Isub))); FBasic (BConst (VI32 60%Z)); FBasic (BOp (SNum2 (B_int W32 Iand))); FBasic (BTee 1); FBasic (BOp (SNum2 (B_int W32 Iadd))); FBasic (BTee 2); FBasic (BConst (VI32 (-4)%Z)); FBasic (BOp (SNum2 (B_int W32 Iadd))); FBasic (BGet 3); FBasic (BOp (SStore SI32 0%Z)); FBasic (BGet 1); FBasic (BConst (VI32 9%Z)); FBasic (BOp (SNum2 (B_irel W32 Ilt_u))); FBrIf 0; FBasic (BGet 5); FBasic (BGet 3); FBasic (BOp (SStore SI32 8%Z)); FBasic (BGet 5); FBasic (BGet 3); FBasic (BOp (SStore SI32 4%Z)); FBasic (BGet 2); FBasic (BConst (VI32 (-8)%Z)); FBasic (BOp (SNum2 (B_int W32 Iadd))); FBasic (BGet 3); FBasic (BOp (SStore SI32 0%Z)); FBasic (BGet 2); FBasic (BConst (VI32 (-12)%Z)); FBasic (BOp (SNum2 (B_int W32 Iadd))); FBasic (BGet 3); FBasic (BOp (SStore SI32 0%Z)); FBasic (BGet 1); FBasic (BConst (VI32 25%Z)); FBasic (BOp (SNum2 (B_irel W32 Ilt_u))); FBrIf 0; FBasic (BGet 5); FBasic (BGet 3); FBasic (BOp (SStore SI32 24%Z)); FBasic (BGet 5); FBasic (BGet 3); FBasic (BOp (SStore SI32 20%Z)); FBasic (BGet 5); FBasic (BGet 3); FBasic (BOp (SStore SI32 16%Z)); FBasic (BGet 5); FBasic (BGet 3); FBasic (BOp (SStore SI32 12%Z)); FBasic (BGet 2); FBasic (BConst (VI32 (-16)%Z)); FBasic (BOp (SNum2 (B_int W32 Iadd))); FBasic (BGet 3); FBasic (BOp (SStore SI32 0%Z)); FBasic (BGet 2); FBasic (BConst (VI32 (-20)%Z)); FBasic (BOp (SNum2 (B_int W32 Iadd))); FBasic (BGet 3); FBasic (BOp (SStore SI32 0%Z)); FBasic (BGet 2); FBasic (BConst (VI32 (-24)%Z)); FBasic (BOp (SNum2 (B_int W32 Iadd))); FBasic (BGet 3); FBasic (BOp (SStore SI32 0%Z)); FBasic (BGet 2); FBasic (BConst (VI32 (-28)%Z)); FBasic (BOp (SNum2 (B_int W32 Iadd))); FBasic (BGet 3); FBasic (BOp (SStore SI32 0%Z)); FBasic (BGet 1); FBasic (BGet 5); FBasic (BConst (VI32 4%Z)); FBasic (BOp (SNum2 (B_int W32 Iand))); FBasic (BConst (VI32 24%Z)); FBasic (BOp (SNum2 (B_int W32 Ior))); FBasic (BTee 2); FBasic (BOp (SNum2 (B_int W32 Isub))); FBasic (BTee 1); FBasic (BConst (VI32 32%Z)); FBasic (BOp (SNum2 (B_irel W32 Ilt_u))); FBrIf 0; FBasic (BGet 3); FBasic (BOp (SCvt (C_ext Ux))); FBasic (BConst (VI64 4294967297%Z)); FBasic (BOp (SNum2 (B_int W64 Imul))); FBasic (BSet 6); FBasic (BGet 5); FBasic (BGet 2); FBasic (BOp (SNum2 (B_int W32 Iadd))); FBasic (BSet 2); FBlock true [] []; FBasic (BGet 2); FBasic (BGet 6); FBasic (BOp (SStore SI64 24%Z)); FBasic (BGet 2); FBasic (BGet 6); FBasic (BOp (SStore SI64 16%Z)); FBasic (BGet 2); FBasic (BGet 6); FBasic (BOp (SStore SI64 8%Z)); FBasic (BGet 2); FBasic (BGet 6); FBasic (BOp (SStore SI64 0%Z)); FBasic (BGet 2); FBasic (BConst (VI32 32%Z)); FBasic (BOp (SNum2 (B_int W32 Iadd))); FBasic (BSet 2); FBasic (BGet 1); FBasic (BConst (VI32 (-32)%Z)); FBasic (BOp (SNum2 (B_int W32 Iadd))); FBasic (BTee 1); FBasic (BConst (VI32 31%Z)); FBasic (BOp (SNum2 (B_irel W32 Igt_u))); FBrIf 0; FEnd; FEnd; FBasic (BGet 0); FEnd]; b_bad := false |};
    PCode {| b_locals := [TI32; TI32; TI32]; b_badlocals := false; b_ops := [FBlock false [] []; FBlock false [] []; FBlock false [] []; FBlock false [] []; FBasic (BGet 1); FBasic (BConst (VI32 255%Z)); FBasic (BOp (SNum2 (B_int W32 Iand))); FBasic (BTee 2); FBasic (BOp (SNum1 (U_eqz W32))); FBrIf 0; FBasic (BGet 0); FBasic (BConst (VI32 3%Z)); FBasic (BOp (SNum2 (B_int W32 Iand))); FBasic (BOp (SNum1 (U_eqz W32))); FBrIf 2; FBlock false [] []; FBasic (BGet 0); FBasic (BOp (SLoad LI32_8u 0%Z)); FBasic (BTee 3); FBrIf 0; FBasic (BGet 0); FReturn; FEnd; FBasic (BGet 3); FBasic (BGet 1); FBasic (BConst (VI32 255%Z)); FBasic (BOp (SNum2 (B_int W32 Iand))); FBasic (BOp (SNum2 (B_irel W32 Ine))); FBrIf 1; FBasic (BGet 0); FReturn; FEnd; FBasic (BGet 0); FBasic (BGet 0); FCall 140; FBasic (BOp (SNum2 (B_int W32 Iadd))); FReturn; FEnd; FBlock false [] []; FBasic (BGet 0); FBasic (BConst (VI32 1%Z)); FBasic (BOp (SNum2 (B_int W32 Iadd))); FBasic (BTee 3); FBasic (BConst (VI32 3%Z)); FBasic (BOp (SNum2 (B_int W32 Iand))); FBrIf 0; FBasic (BGet 3); FBasic (BSet 0); FBr 1; FEnd; FBasic (BGet 3); FBasic (BOp (SLoad LI32_8u 0%Z)); FBasic (BTee 4); FBasic (BOp (SNum1 (U_eqz W32))); FBrIf 1; FBasic (BGet 4); FBasic (BGet 1); FBasic (BConst (VI32 255%Z)); FBasic (BOp (SNum2 (B_int W32 Iand))); FBasic (BOp (SNum2 (B_irel W32 Ieq))); FBrIf 1; FBlock false [] []; FBasic (BGet 0); FBasic (BConst (VI32 2%Z)); FBasic (BOp (SNum2 (B_int W32 Iadd))); FBasic (BTee 3); FBasic (BConst (VI32 3%Z)); FBasic (BOp (SNum2 (B_int W32 Iand))); FBrIf 0; FBasic (BGet 3); FBasic (BSet 0); FBr 1; FEnd; FBasic (BGet 3); FBasic (BOp (SLoad LI32_8u 0%Z)); FBasic (BTee 4); FBasic (BOp (SNum1 (U_eqz W32))); FBrIf 1; FBasic (BGet 4); FBasic (BGet 1); FBasic (BConst (VI32 255%Z)); FBasic (BOp (SNum2 (B_int W32 Iand))); FBasic (BOp (SNum2 (B_irel W32 Ieq))); FBrIf 1; FBlock false [] []; FBasic (BGet 0); FBasic (BConst (VI32 3%Z)); FBasic (BOp (SNum2 (B_int W32 Iadd))); FBasic (BTee 3); FBasic (BConst (VI32 3%Z)); FBasic (BOp (SNum2 (B_int W32 Iand))); FBrIf 0; FBasic (BGet 3); FBasic (BSet 0); FBr 1; FEnd; FBasic (BGet 3); FBasic (BOp (SLoad LI32_8u 0%Z)); FBasic (BTee 4); FBasic (BOp (SNum1 (U_eqz W32))); FBrIf 1; FBasic (BGet 4); FBasic (BGet 1); FBasic (BConst (VI32 255%Z)); FBasic (BOp (SNum2 (B_int W32 Iand))); FBasic (BOp (SNum2 (B_irel W32 Ieq))); FBrIf 1; FBasic (BGet 0); FBasic (BConst (VI32 4%Z)); FBasic (BOp (SNum2 (B_int W32 Iadd))); FBasic (BSet 0); FEnd; FBlock false [] []; FBlock false [] []; FBasic (BConst (VI32 16843008%Z)); FBasic (BGet 0); FBasic (BOp (SLoad LI32 0%Z)); FBasic (BTee 3); FBasic (BOp (SNum2 (B_int W32 Isub))); FBasic (BGet 3); FBasic (BOp (SNum2 (B_int W32 Ior))); FBasic (BConst (VI32 (-2139062144)%Z)); FBasic (BOp (SNum2 (B_int W32 Iand))); FBasic (BConst (VI32 (-2139062144)%Z)); FBasic (BOp (SNum2 (B_irel W32 Ieq))); FBrIf 0; FBasic (BGet 0); FBasic (BSet 2); FBr 1; FEnd; FBasic (BGet 2); FBasic (BConst (VI32 16843009%Z)); FBasic (BOp (SNum2 (B_int W32 Imul))); FBasic (BSet 4); FBlock true [] []; FBlock false [] []; FBasic (BConst (VI32 16843008%Z)); FBasic (BGet 3); FBasic (BGet 4); FBasic (BOp (SNum2 (B_int W32 Ixor))); FBasic (BTee 3); FBasic (BOp (SNum2 (B_int W32 Isub))); FBasic (BGet 3); FBasic (BOp (SNum2 (B_int W32 Ior))); FBasic (BConst (VI32 (-2139062144)%Z)); FBasic (BOp (SNum2 (B_int W32 Iand))); FBasic (BConst (VI32 (-2139062144)%Z)); FBasic (BOp (SNum2 (B_irel W32 Ieq))); FBrIf 0; FBasic (BGet 0); FBasic (BSet 2); FBr 2; FEnd; FBasic (BGet 0); FBasic (BOp (SLoad LI32 4%Z)); FBasic (BSet 3); FBasic (BGet 0); FBasic (BConst (VI32 4%Z)); FBasic (BOp (SNum2 (B_int W32 Iadd))); FBasic (BTee 2); FBasic (BSet 0); FBasic (BGet 3); FBasic (BConst (VI32 16843008%Z)); FBasic (BGet 3); FBasic (BOp (SNum2 (B_int W32 Isub))); FBasic (BOp (SNum2 (B_int W32 Ior))); FBasic (BConst (VI32 (-2139062144)%Z)); FBasic (BOp (SNum2 (B_int W32 Iand))); FBasic (BConst (VI32 (-2139062144)%Z)); FBasic (BOp (SNum2 (B_irel W32 Ieq))); FBrIf 0; FEnd; FEnd; FBasic (BGet 2); FBasic (BConst (VI32 (-1)%Z)); FBasic (BOp (SNum2 (B_int W32 Iadd))); FBasic (BSet 3); FBlock true [] []; FBasic (BGet 3); FBasic (BConst (VI32 1%Z)); FBasic (BOp (SNum2 (B_int W32 Iadd))); FBasic (BTee 3); FBasic (BOp (SLoad LI32_8u 0%Z)); FBasic (BTee 0); FBasic (BOp (SNum1 (U_eqz W32))); FBrIf 1; FBasic (BGet 0); FBasic (BGet 1); FBasic (BConst (VI32 255%Z)); FBasic (BOp (SNum2 (B_int W32 Iand))); FBasic (BOp (SNum2 (B_irel W32 Ine))); FBrIf 0; FEnd; FEnd; FBasic (BGet 3); FEnd]; b_bad := false |};
    PCode {| b_locals := [TI32; TI32]; b_badlocals := false; b_ops := [FBlock false [] []; FBlock false [] []; FBlock false [] []; FBasic (BGet 1); FBasic (BGet 0); FBasic (BOp (SNum2 (B_int W32 Ixor))); FBasic (BConst (VI32 3%Z)); FBasic (BOp (SNum2 (B_int W32 Iand))); FBasic (BOp (SNum1 (U_eqz W32))); FBrIf 0; FBasic (BGet 1); FBasic (BOp (SLoad LI32_8u 0%Z)); FBasic (BSet 2); FBr 1; FEnd; FBlock false [] []; FBlock false [] []; FBasic (BGet 1); FBasic (BConst (VI32 3%Z)); FBasic (BOp (SNum2 (B_int W32 Iand))); FBrIf 0; FBasic (BGet 1); FBasic (BSet 3); FBr 1; FEnd; FBasic (BGet 0); FBasic (BGet 1); FBasic (BOp (SLoad LI32_8u 0%Z)); FBasic (BTee 2); FBasic (BOp (SStore SI32_8 0%Z)); FBlock false [] []; FBasic (BGet 2); FBrIf 0; FBasic (BGet 0); FReturn; FEnd; FBasic (BGet 0); FBasic (BConst (VI32 1%Z)); FBasic (BOp (SNum2 (B_int W32 Iadd))); FBasic (BSet 2); FBlock false [] []; FBasic (BGet 1); FBasic (BConst (VI32 1%Z)); FBasic (BOp (SNum2 (B_int W32 Iadd))); FBasic (BTee 3); FBasic (BConst (VI32 3%Z)); FBasic (BOp (SNum2 (B_int W32 Iand))); FBrIf 0; FBasic (BGet 2); FBasic (BSet 0); FBr 1; FEnd; FBasic (BGet 2); FBasic (BGet 3); FBasic (BOp (SLoad LI32_8u 0%Z)); FBasic (BTee 3); FBasic (BOp (SStore SI32_8 0%Z)); FBasic (BGet 3); FBasic (BOp (SNum1 (U_eqz W32))); FBrIf 2; FBasic (BGet 0); FBasic (BConst (VI32 2%Z)); FBasic (BOp (SNum2 (B_int W32 Iadd))); FBasic (BSet 2); FBlock false [] []; FBasic (BGet 1); FBasic (BConst (VI32 2%Z)); FBasic (BOp (SNum2 (B_int W32 Iadd))); FBasic (BTee 3); FBasic (BConst (VI32 3%Z)); FBasic (BOp (SNum2 (B_int W32 Iand))); FBrIf 0; FBasic (BGet 2); FBasic (BSet 0); FBr 1; FEnd; FBasic (BGet 2); FBasic (BGet 3); FBasic (BOp (SLoad LI32_8u 0%Z)); FBasic (BTee 3); FBasic (BOp (SStore SI32_8 0%Z)); FBasic (BGet 3); FBasic (BOp (SNum1 (U_eqz W32))); FBrIf 2; FBasic (BGet 0); FBasic (BConst (VI32 3%Z)); FBasic (BOp (SNum2 (B_int W32 Iadd))); FBasic (BSet 2); FBlock false [] []; FBasic (BGet 1); FBasic (BConst (VI32 3%Z)); FBasic (BOp (SNum2 (B_int W32 Iadd))); FBasic (BTee 3); FBasic (BConst (VI32 3%Z)); FBasic (BOp (SNum2 (B_int W32 Iand))); FBrIf 0; FBasic (BGet 2); FBasic (BSet 0); FBr 1; FEnd; FBasic (BGet 2); FBasic (BGet 3); FBasic (BOp (SLoad LI32_8u 0%Z)); FBasic (BTee 3); FBasic (BOp (SStore SI32_8 0%Z)); FBasic (BGet 3); FBasic (BOp (SNum1 (U_eqz W32))); FBrIf 2; FBasic (BGet 0); FBasic (BConst (VI32 4%Z)); FBasic (BOp (SNum2 (B_int W32 Iadd))); FBasic (BSet 0); FBasic (BGet 1); FBasic (BConst (VI32 4%Z)); FBasic (BOp (SNum2 (B_int W32 Iadd))); FBasic (BSet 3); FEnd; FBlock false [] []; FBasic (BConst (VI32 16843008%Z)); FBasic (BGet 3); FBasic (BOp (SLoad LI32 0%Z)); FBasic (BTee 2); FBasic (BOp (SNum2 (B_int W32 Isub))); FBasic (BGet 2); FBasic (BOp (SNum2 (B_int W32 Ior))); FBasic (BConst (VI32 (-2139062144)%Z)); FBasic (BOp (SNum2 (B_int W32 Iand))); FBasic (BConst (VI32 (-2139062144)%Z)); FBasic (BOp (SNum2 (B_irel W32 Ieq))); FBrIf 0; FBasic (BGet 3); FBasic (BSet 1); FBr 1; FEnd; FBlock true [] []; FBasic (BGet 0); FBasic (BGet 2); FBasic (BOp (SStore SI32 0%Z)); FBasic (BGet 0); FBasic (BConst (VI32 4%Z)); FBasic (BOp (SNum2 (B_int W32 Iadd))); FBasic (BSet 0); FBasic (BGet 3); FBasic (BOp (SLoad LI32 4%Z)); FBasic (BSet 2); FBasic (BGet 3); FBasic (BConst (VI32 4%Z)); FBasic (BOp (SNum2 (B_int W32 Iadd))); FBasic (BTee 1); FBasic (BSet 3); FBasic (BGet 2); FBasic (BConst (VI32 16843008%Z)); FBasic (BGet 2); FBasic (BOp (SNum2 (B_int W32 Isub))); FBasic (BOp (SNum2 (B_int W32 Ior))); FBasic (BConst (VI32 (-2139062144)%Z)); FBasic (BOp (SNum2 (B_int W32 Iand))); FBasic (BConst (VI32 (-2139062144)%Z)); FBasic (BOp (SNum2 (B_irel W32 Ieq))); FBrIf 0; FEnd; FEnd; FBasic (BGet 0); FBasic (BGet 2); FBasic (BOp (SStore SI32_8 0%Z)); FBlock false [] []; FBasic (BGet 2); FBasic (BConst (VI32 255%Z)); FBasic (BOp (SNum2 (B_int W32 Iand))); FBrIf 0; FBasic (BGet 0); FReturn; FEnd; FBasic (BGet 1); FBasic (BConst (VI32 1%Z)); FBasic (BOp (SNum2 (B_int W32 Iadd))); FBasic (BSet 3); FBasic (BGet 0); FBasic (BSet 2); FBlock true [] []; FBasic (BGet 2); FBasic (BGet 3); FBasic (BOp (SLoad LI32_8u 0%Z)); FBasic (BTee 0); FBasic (BOp (SStore SI32_8 1%Z)); FBasic (BGet 3); FBasic (BConst (VI32 1%Z)); FBasic (BOp (SNum2 (B_int W32 Iadd))); FBasic (BSet 3); FBasic (BGet 2); FBasic (BConst (VI32 1%Z)); FBasic (BOp (SNum2 (B_int W32 Iadd))); FBasic (BSet 2); FBasic (BGet 0); FBrIf 0; FEnd; FEnd; FBasic (BGet 2); FEnd]; b_bad := false |};
    PCode {| b_locals := []; b_badlocals := false; b_ops := [FBasic (BGet 0); FBasic (BGet 1); FCall 137; FBasic BDrop; FBasic (BGet 0); FEnd]; b_bad := false |};
    PCode {| b_locals := [TI32; TI32]; b_badlocals := false; b_ops := [FBlock false [] []; FBasic (BGet 0); FCall 140; FBasic (BConst (VI32 1%Z)); FBasic (BOp (SNum2 (B_int W32 Iadd))); FBasic (BTee 1); FCall 112; FBasic (BTee 2); FBasic (BOp (SNum1 (U_eqz W32))); FBrIf 0; FBasic (BGet 2); FBasic (BGet 0); FBasic (BGet 1); FCall 134; FBasic BDrop; FEnd; FBasic (BGet 2); FEnd]; b_bad := false |};
    PCode {| b_locals := [TI32; TI32; TI32]; b_badlocals := false; b_ops := [FBasic (BGet 0); FBasic (BSet 1); FBlock false [] []; FBlock false [] []; FBasic (BGet 0); FBasic (BConst (VI32 3%Z)); FBasic (BOp (SNum2 (B_int W32 Iand))); FBasic (BOp (SNum1 (U_eqz W32))); FBrIf 0; FBlock false [] []; FBasic (BGet 0); FBasic (BOp (SLoad LI32_8u 0%Z)); FBrIf 0; FBasic (BGet 0); FBasic (BGet 0); FBasic (BOp (SNum2 (B_int W32 Isub))); FReturn; FEnd; FBasic (BGet 0); FBasic (BConst (VI32 1%Z)); FBasic (BOp (SNum2 (B_int W32 Iadd))); FBasic (BTee 1); FBasic (BConst (VI32 3%Z)); FBasic (BOp (SNum2 (B_int W32 Iand))); FBasic (BOp (SNum1 (U_eqz W32))); FBrIf 0; FBasic (BGet 1); FBasic (BOp (SLoad LI32_8u 0%Z)); FBasic (BOp (SNum1 (U_eqz W32))); FBrIf 1; FBasic (BGet 0); FBasic (BConst (VI32 2%Z)); FBasic (BOp (SNum2 (B_int W32 Iadd))); FBasic (BTee 1); FBasic (BConst (VI32 3%Z)); FBasic (BOp (SNum2 (B_int W32 Iand))); FBasic (BOp (SNum1 (U_eqz W32))); FBrIf 0; FBasic (BGet 1); FBasic (BOp (SLoad LI32_8u 0%Z)); FBasic (BOp (SNum1 (U_eqz W32))); FBrIf 1; FBasic (BGet 0); FBasic (BConst (VI32 3%Z)); FBasic (BOp (SNum2 (B_int W32 Iadd))); FBasic (BTee 1); FBasic (BConst (VI32 3%Z)); FBasic (BOp (SNum2 (B_int W32 Iand))); FBasic (BOp (SNum1 (U_eqz W32))); FBrIf 0; FBasic (BGet 1); FBasic (BOp (SLoad LI32_8u 0%Z)); FBasic (BOp (SNum1 (U_eqz W32))); FBrIf 1; FBasic (BGet 0); FBasic (BConst (VI32 4%Z)); FBasic (BOp (SNum2 (B_int W32 Iadd))); FBasic (BTee 1); FBasic (BConst (VI32 3%Z)); FBasic (BOp (SNum2 (B_int W32 Iand))); FBrIf 1; FEnd; FBasic (BGet 1); FBasic (BConst (VI32 (-4)%Z)); FBasic (BOp (SNum2 (B_int W32 Iadd))); FBasic (BSet 2); FBasic (BGet 1); FBasic (BConst (VI32 (-5)%Z)); FBasic (BOp (SNum2 (B_int W32 Iadd))); FBasic (BSet 1); FBlock true [] []; FBasic (BGet 1); FBasic (BConst (VI32 4%Z)); FBasic (BOp (SNum2 (B_int W32 Iadd))); FBasic (BSet 1); FBasic (BConst (VI32 16843008%Z)); FBasic (BGet 2); FBasic (BConst (VI32 4%Z)); FBasic (BOp (SNum2 (B_int W32 Iadd))); FBasic (BTee 2); FBasic (BOp (SLoad LI32 0%Z)); FBasic (BTee 3); FBasic (BOp (SNum2 (B_int W32 Isub))); FBasic (BGet 3); FBasic (BOp (SNum2 (B_int W32 Ior))); FBasic (BConst (VI32 (-2139062144)%Z)); FBasic (BOp (SNum2 (B_int W32 Iand))); FBasic (BConst (VI32 (-2139062144)%Z)); FBasic (BOp (SNum2 (B_irel W32 Ieq))); FBrIf 0; FEnd; FBlock true [] []; FBasic (BGet 1); FBasic (BConst (VI32 1%Z)); FBasic (BOp (SNum2 (B_int W32 Iadd))); FBasic (BSet 1); FBasic (BGet 2); FBasic (BOp (SLoad LI32_8u 0%Z)); FBasic (BSet 3); FBasic (BGet 2); FBasic (BConst (VI32 1%Z)); FBasic (BOp (SNum2 (B_int W32 Iadd))); FBasic (BSet 2); FBasic (BGet 3); FBrIf 0; FEnd; FEnd; FBasic (BGet 1); FBasic (BGet 0); FBasic (BOp (SNum2 (B_int W32 Isub))); FEnd]; b_bad := false |};
    PCode {| b_locals := [TI32; TI32]; b_badlocals := false; b_ops := [FBlock false [] []; FBasic (BGet 2); FBrIf 0; FBasic (BConst (VI32 0%Z)); FReturn; FEnd; FBlock false [] []; FBlock false [] []; FBasic (BGet 0); FBasic (BOp (SLoad LI32_8u 0%Z)); FBasic (BTee 3); FBrIf 0; FBasic (BConst (VI32 0%Z)); FBasic (BSet 3); FBr 1; FEnd; FBasic (BGet 0); FBasic (BConst (VI32 1%Z)); FBasic (BOp (SNum2 (B_int W32 Iadd))); FBasic (BSet 0); FBasic (BGet 2); FBasic (BConst (VI32 (-1)%Z)); FBasic (BOp (SNum2 (B_int W32 Iadd))); FBasic (BSet 2); FBlock false [] []; FBlock true [] []; FBasic (BGet 3); FBasic (BConst (VI32 255%Z)); FBasic (BOp (SNum2 (B_int W32 Iand))); FBasic (BGet 1); FBasic (BOp (SLoad LI32_8u 0%Z)); FBasic (BTee 4); FBasic (BOp (SNum2 (B_irel W32 Ine))); FBrIf 1; FBasic (BGet 4); FBasic (BOp (SNum1 (U_eqz W32))); FBrIf 1; FBasic (BGet 2); FBasic (BConst (VI32 0%Z)); FBasic (BOp (SNum2 (B_irel W32 Ieq))); FBrIf 1; FBasic (BGet 2); FBasic (BConst (VI32 (-1)%Z)); FBasic (BOp (SNum2 (B_int W32 Iadd))); FBasic (BSet 2); FBasic (BGet 1); FBasic (BConst (VI32 1%Z)); FBasic (BOp (SNum2 (B_int W32 Iadd))); FBasic (BSet 1); FBasic (BGet 0); FBasic (BOp (SLoad LI32_8u 0%Z)); FBasic (BSet 3); FBasic (BGet 0); FBasic (BConst (VI32 1%Z)); FBasic (BOp (SNum2 (B_int W32 Iadd))); FBasic (BSet 0); FBasic (BGet 3); FBrIf 0; FEnd; FBasic (BConst (VI32 0%Z)); FBasic (BSet 3); FEnd; FBasic (BGet 3); FBasic (BConst (VI32 255%Z)); FBasic (BOp (SNum2 (B_int W32 Iand))); FBasic (BSet 3); FEnd; FBasic (BGet 3); FBasic (BGet 1); FBasic (BOp (SLoad LI32_8u 0%Z)); FBasic (BOp (SNum2 (B_int W32 Isub))); FEnd]; b_bad := false |};
    PCode {| b_locals := [TI32]; b_badlocals := false; b_ops := [FBasic (BOp (SGlobalGet TI32 0)); FBasic (BConst (VI32 32%Z)); FBasic (BOp (SNum2 (B_int W32 Isub))); FBasic (BTee 1); FBasic (BOp (SGlobalSet TI32 0)); FBasic (BGet 1); FBasic (BConst (VI32 0%Z)); FBasic (BOp (SStore SI32 24%Z)); FBasic (BGet 1); FBasic (BConst (VI32 1%Z)); FBasic (BOp (SStore SI32 12%Z)); FBasic (BGet 1); FBasic (BConst (VI32 1053612%Z)); FBasic (BOp (SStore SI32 8%Z)); FBasic (BGet 1); FBasic (BConst (VI64 4%Z)); FBasic (BOp (SStore SI64 16%Z)); FBasic (BGet 1); FBasic (BConst (VI32 8%Z)); FBasic (BOp (SNum2 (B_int W32 Iadd))); FBasic (BGet 0); FCall 152; FUnreachable; FEnd]; b_bad := false |};
    PCode {| b_locals := []; b_badlocals := false; b_ops := [FBlock false [] []; FBasic (BGet 0); FBasic (BOp (SNum1 (U_eqz W32))); FBrIf 0; FBasic (BGet 0); FBasic (BGet 1); FCall 145; FUnreachable; FEnd; FBasic (BGet 2); FCall 142; FUnreachable; FEnd]; b_bad := false |};
    PCode {| b_locals := [TI32]; b_badlocals := false; b_ops := [FBlock false [] []; FBasic (BGet 2); FBasic (BConst (VI32 0%Z)); FBasic (BOp (SNum2 (B_irel W32 Ilt_s))); FBrIf 0; FBlock false [] []; FBlock false [] []; FBlock false [] []; FBasic (BGet 3); FBasic (BOp (SLoad LI32 4%Z)); FBasic (BOp (SNum1 (U_eqz W32))); FBrIf 0; FBlock false [] []; FBasic (BGet 3); FBasic (BOp (SLoad LI32 8%Z)); FBasic (BTee 4); FBrIf 0; FBlock false [] []; FBasic (BGet 2); FBrIf 0; FBasic (BGet 1); FBasic (BSet 3); FBr 4; FEnd; FBasic (BConst (VI32 0%Z)); FBasic (BOp (SLoad LI32_8u 1057197%Z)); FBasic BDrop; FBr 2; FEnd; FBasic (BGet 3); FBasic (BOp (SLoad LI32 0%Z)); FBasic (BGet 4); FBasic (BGet 1); FBasic (BGet 2); FCall 20; FBasic (BSet 3); FBr 2; FEnd; FBlock false [] []; FBasic (BGet 2); FBrIf 0; FBasic (BGet 1); FBasic (BSet 3); FBr 2; FEnd; FBasic (BConst (VI32 0%Z)); FBasic (BOp (SLoad LI32_8u 1057197%Z)); FBasic BDrop; FEnd; FBasic (BGet 2); FBasic (BGet 1); FCall 18; FBasic (BSet 3); FEnd; FBlock false [] []; FBasic (BGet 3); FBrIf 0; FBasic (BGet 0); FBasic (BGet 2); FBasic (BOp (SStore SI32 8%Z)); FBasic (BGet 0); FBasic (BGet 1); FBasic (BOp (SStore SI32 4%Z)); FBasic (BGet 0); FBasic (BConst (VI32 1%Z)); FBasic (BOp (SStore SI32 0%Z)); FReturn; FEnd; FBasic (BGet 0); FBasic (BGet 2); FBasic (BOp (SStore SI32 8%Z)); FBasic (BGet 0); FBasic (BGet 3); FBasic (BOp (SStore SI32 4%Z)); FBasic (BGet 0); FBasic (BConst (VI32 0%Z)); FBasic (BOp (SStore SI32 0%Z)); FReturn; FEnd; FBasic (BGet 0); FBasic (BConst (VI32 0%Z)); FBasic (BOp (SStore SI32 4%Z)); FBasic (BGet 0); FBasic (BConst (VI32 1%Z)); FBasic (BOp (SStore SI32 0%Z)); FEnd]; b_bad := false |};
    PCode {| b_locals := []; b_badlocals := false; b_ops := [FBasic (BGet 1); FBasic (BGet 0); FCall 21; FUnreachable; FEnd]; b_bad := false |};
    PCode {| b_locals := [TI32; TI32; TI32; TI32]; b_badlocals := false; b_ops := [FBasic (BOp (SGlobalGet TI32 0)); FBasic (BConst (VI32 32%Z)); FBasic (BOp (SNum2 (B_int W32 Isub))); FBasic (BTee 3); FBasic (BOp (SGlobalSet TI32 0)); FBlock false [] []; FBlock false [] []; FBlock false [] []; FBasic (BGet 2); FBasic (BConst (VI32 (-1)%Z)); FBasic (BOp (SNum2 (B_irel W32 Ieq))); FBrIf 0; FBasic (BConst (VI32 0%Z)); FBasic (BSet 4); FBlock false [] []; FBasic (BGet 2); FBasic (BConst (VI32 1%Z)); FBasic (BOp (SNum2 (B_int W32 Iadd))); FBasic (BTee 5); FBasic (BConst (VI32 0%Z)); FBasic (BOp (SNum2 (B_irel W32 Ilt_s))); FBrIf 0; FBasic (BConst (VI32 0%Z)); FBasic (BOp (SLoad LI32_8u 1057197%Z)); FBasic BDrop; FBasic (BConst (VI32 1%Z)); FBasic (BSet 4); FBasic (BGet 5); FBasic (BConst (VI32 1%Z)); FCall 18; FBasic (BTee 6); FBasic (BOp (SNum1 (U_eqz W32))); FBrIf 0; FBlock false [] []; FBasic (BGet 2); FBasic (BOp (SNum1 (U_eqz W32))); FBrIf 0; FBasic (BGet 6); FBasic (BGet 1); FBasic (BGet 2); FBasic (BOp SMemCopy); FEnd; FBlock false [] []; FBlock false [] []; FBasic (BGet 2); FBasic (BConst (VI32 7%Z)); FBasic (BOp (SNum2 (B_irel W32 Igt_u))); FBrIf 0; FBasic (BGet 2); FBasic (BOp (SNum1 (U_eqz W32))); FBrIf 4; FBlock false [] []; FBasic (BGet 1); FBasic (BOp (SLoad LI32_8u 0%Z)); FBrIf 0; FBasic (BConst (VI32 0%Z)); FBasic (BSet 4); FBr 2; FEnd; FBasic (BConst (VI32 1%Z)); FBasic (BSet 4); FBasic (BGet 2); FBasic (BConst (VI32 1%Z)); FBasic (BOp (SNum2 (B_irel W32 Ieq))); FBrIf 4; FBasic (BGet 1); FBasic (BOp (SLoad LI32_8u 1%Z)); FBasic (BOp (SNum1 (U_eqz W32))); FBrIf 1; FBasic (BConst (VI32 2%Z)); FBasic (BSet 4); FBasic (BGet 2); FBasic (BConst (VI32 2%Z)); FBasic (BOp (SNum2 (B_irel W32 Ieq))); FBrIf 4; FBasic (BGet 1); FBasic (BOp (SLoad LI32_8u 2%Z)); FBasic (BOp (SNum1 (U_eqz W32))); FBrIf 1; FBasic (BConst (VI32 3%Z)); FBasic (BSet 4); FBasic (BGet 2); FBasic (BConst (VI32 3%Z)); FBasic (BOp (SNum2 (B_irel W32 Ieq))); FBrIf 4; FBasic (BGet 1); FBasic (BOp (SLoad LI32_8u 3%Z)); FBasic (BOp (SNum1 (U_eqz W32))); FBrIf 1; FBasic (BConst (VI32 4%Z)); FBasic (BSet 4); FBasic (BGet 2); FBasic (BConst (VI32 4%Z)); FBasic (BOp (SNum2 (B_irel W32 Ieq))); FBrIf 4; FBasic (BGet 1); FBasic (BOp (SLoad LI32_8u 4%Z)); FBasic (BOp (SNum1 (U_eqz W32))); FBrIf 1; FBasic (BConst (VI32 5%Z)); FBasic (BSet 4); FBasic (BGet 2); FBasic (BConst (VI32 5%Z)); FBasic (BOp (SNum2 (B_irel W32 Ieq))); FBrIf 4; FBasic (BGet 1); FBasic (BOp (SLoad LI32_8u 5%Z)); FBasic (BOp (SNum1 (U_eqz W32))); FBrIf 1; FBasic (BConst (VI32 6%Z)); FBasic (BSet 4); FBasic (BGet 2); FBasic (BConst (VI32 6%Z)); FBasic (BOp (SNum2 (B_irel W32 Ieq))); FBrIf 4; FBasic (BGet 1); FBasic (BOp (SLoad LI32_8u 6%Z)); FBasic (BOp (SNum1 (U_eqz W32))); FBrIf 1; FBr 4; FEnd; FBasic (BGet 3); FBasic (BConst (VI32 8%Z)); FBasic (BOp (SNum2 (B_int W32 Iadd))); FBasic (BConst (VI32 0%Z)); FBasic (BGet 1); FBasic (BGet 2); FCall 189; FBasic (BGet 3); FBasic (BOp (SLoad LI32 8%Z)); FBasic (BConst (VI32 1%Z)); FBasic (BOp (SNum2 (B_int W32 Iand))); FBasic (BOp (SNum1 (U_eqz W32))); FBrIf 3; FBasic (BGet 3); FBasic (BOp (SLoad LI32 12%Z)); FBasic (BSet 4); FEnd; FBasic (BGet 0); FBasic (BGet 4); FBasic (BOp (SStore SI32 12%Z)); FBasic (BGet 0); FBasic (BGet 2); FBasic (BOp (SStore SI32 8%Z)); FBasic (BGet 0); FBasic (BGet 6); FBasic (BOp (SStore SI32 4%Z)); FBasic (BGet 0); FBasic (BGet 5); FBasic (BOp (SStore SI32 0%Z)); FBr 3; FEnd; FBasic (BGet 4); FBasic (BGet 5); FBasic (BConst (VI32 1053652%Z)); FCall 143; FUnreachable; FEnd; FBasic (BConst (VI32 1053668%Z)); FCall 170; FUnreachable; FEnd; FBasic (BGet 3); FBasic (BGet 2); FBasic (BOp (SStore SI32 28%Z)); FBasic (BGet 3); FBasic (BGet 6); FBasic (BOp (SStore SI32 24%Z)); FBasic (BGet 3); FBasic (BGet 5); FBasic (BOp (SStore SI32 20%Z)); FBasic (BGet 3); FBasic (BGet 3); FBasic (BConst (VI32 20%Z)); FBasic (BOp (SNum2 (B_int W32 Iadd))); FCall 147; FBasic (BGet 0); FBasic (BGet 3); FBasic (BOp (SLoad LI64 0%Z)); FBasic (BOp (SStore SI64 4%Z)); FBasic (BGet 0); FBasic (BConst (VI32 (-2147483648)%Z)); FBasic (BOp (SStore SI32 0%Z)); FEnd; FBasic (BGet 3); FBasic (BConst (VI32 32%Z)); FBasic (BOp (SNum2 (B_int W32 Iadd))); FBasic (BOp (SGlobalSet TI32 0)); FEnd]; b_bad := false |};
    PCode {| b_locals := [TI32; TI32; TI32; TI32]; b_badlocals := false; b_ops := [FBasic (BOp (SGlobalGet TI32 0)); FBasic (BConst (VI32 32%Z)); FBasic (BOp (SNum2 (B_int W32 Isub))); FBasic (BTee 2); FBasic (BOp (SGlobalSet TI32 0)); FBlock false [] []; FBasic (BGet 1); FBasic (BOp (SLoad LI32 0%Z)); FBasic (BTee 3); FBasic (BGet 1); FBasic (BOp (SLoad LI32 8%Z)); FBasic (BTee 4); FBasic (BOp (SNum2 (B_irel W32 Ine))); FBrIf 0; FBasic (BConst (VI32 0%Z)); FBasic (BSet 5); FBlock false [] []; FBlock false [] []; FBlock false [] []; FBasic (BGet 4); FBasic (BConst (VI32 1%Z)); FBasic (BOp (SNum2 (B_int W32 Iadd))); FBasic (BTee 3); FBasic (BConst (VI32 0%Z)); FBasic (BOp (SNum2 (B_irel W32 Ige_s))); FBrIf 0; FBr 1; FEnd; FBasic (BConst (VI32 0%Z)); FBasic (BSet 5); FBlock false [] []; FBasic (BGet 4); FBasic (BOp (SNum1 (U_eqz W32))); FBrIf 0; FBasic (BGet 2); FBasic (BGet 4); FBasic (BOp (SStore SI32 28%Z)); FBasic (BGet 2); FBasic (BGet 1); FBasic (BOp (SLoad LI32 4%Z)); FBasic (BOp (SStore SI32 20%Z)); FBasic (BConst (VI32 1%Z)); FBasic (BSet 5); FEnd; FBasic (BGet 2); FBasic (BGet 5); FBasic (BOp (SStore SI32 24%Z)); FBasic (BGet 2); FBasic (BConst (VI32 8%Z)); FBasic (BOp (SNum2 (B_int W32 Iadd))); FBasic (BConst (VI32 1%Z)); FBasic (BGet 3); FBasic (BGet 2); FBasic (BConst (VI32 20%Z)); FBasic (BOp (SNum2 (B_int W32 Iadd))); FCall 144; FBasic (BGet 2); FBasic (BOp (SLoad LI32 8%Z)); FBasic (BConst (VI32 1%Z)); FBasic (BOp (SNum2 (B_irel W32 Ine))); FBrIf 1; FBasic (BGet 2); FBasic (BOp (SLoad LI32 16%Z)); FBasic (BSet 1); FBasic (BGet 2); FBasic (BOp (SLoad LI32 12%Z)); FBasic (BSet 5); FEnd; FBasic (BGet 5); FBasic (BGet 1); FBasic (BConst (VI32 1053684%Z)); FCall 143; FUnreachable; FEnd; FBasic (BGet 2); FBasic (BOp (SLoad LI32 12%Z)); FBasic (BSet 5); FBasic (BGet 1); FBasic (BGet 3); FBasic (BOp (SStore SI32 0%Z)); FBasic (BGet 1); FBasic (BGet 5); FBasic (BOp (SStore SI32 4%Z)); FEnd; FBasic (BGet 1); FBasic (BGet 4); FBasic (BConst (VI32 1%Z)); FBasic (BOp (SNum2 (B_int W32 Iadd))); FBasic (BTee 5); FBasic (BOp (SStore SI32 8%Z)); FBasic (BGet 1); FBasic (BOp (SLoad LI32 4%Z)); FBasic (BTee 1); FBasic (BGet 4); FBasic (BOp (SNum2 (B_int W32 Iadd))); FBasic (BConst (VI32 0%Z)); FBasic (BOp (SStore SI32_8 0%Z)); FBlock false [] []; FBlock false [] []; FBasic (BGet 3); FBasic (BGet 5); FBasic (BOp (SNum2 (B_irel W32 Igt_u))); FBrIf 0; FBasic (BGet 1); FBasic (BSet 4); FBr 1; FEnd; FBlock false [] []; FBasic (BGet 5); FBrIf 0; FBasic (BConst (VI32 1%Z)); FBasic (BSet 4); FBasic (BGet 1); FBasic (BGet 3); FBasic (BConst (VI32 1%Z)); FCall 19; FBr 1; FEnd; FBasic (BGet 1); FBasic (BGet 3); FBasic (BConst (VI32 1%Z)); FBasic (BGet 5); FCall 20; FBasic (BTee 4); FBrIf 0; FBasic (BConst (VI32 1%Z)); FBasic (BGet 5); FCall 145; FUnreachable; FEnd; FBasic (BGet 0); FBasic (BGet 5); FBasic (BOp (SStore SI32 4%Z)); FBasic (BGet 0); FBasic (BGet 4); FBasic (BOp (SStore SI32 0%Z)); FBasic (BGet 2); FBasic (BConst (VI32 32%Z)); FBasic (BOp (SNum2 (B_int W32 Iadd))); FBasic (BOp (SGlobalSet TI32 0)); FEnd]; b_bad := false |};
    PCode {| b_locals := []; b_badlocals := false; b_ops := [FBasic (BGet 0); FBasic (BGet 1); FBasic (BGet 2); FCall 190; FUnreachable; FEnd]; b_bad := false |};
    PCode {| b_locals := []; b_badlocals := false; b_ops := [FBasic (BGet 0); FBasic (BGet 1); FBasic (BGet 2); FCall 191; FUnreachable; FEnd]; b_bad := false |};
    PCode {| b_locals := [TI32; TI32; TI32; TI32; TI32; TI32; TI32]; b_badlocals := false; b_ops := [FBlock false [] []; FBlock false [] []; FBasic (BGet 0); FBasic (BOp (SLoad LI32 8%Z)); FBasic (BTee 3); FBasic (BConst (VI32 402653184%Z)); FBasic (BOp (SNum2 (B_int W32 Iand))); FBasic (BOp (SNum1 (U_eqz W32))); FBrIf 0; FBlock false [] []; FBlock false [] []; FBlock false [] []; FBlock false [] []; FBlock false [] []; FBasic (BGet 3); FBasic (BConst (VI32 268435456%Z)); FBasic (BOp (SNum2 (B_int W32 Iand))); FBasic (BOp (SNum1 (U_eqz W32))); FBrIf 0; FBasic (BGet 0); FBasic (BOp (SLoad LI32_16u 14%Z)); FBasic (BTee 4); FBrIf 1; FBasic (BConst (VI32 0%Z)); FBasic (BSet 2); FBr 2; FEnd; FBlock false [] []; FBasic (BGet 2); FBasic (BConst (VI32 16%Z)); FBasic (BOp (SNum2 (B_irel W32 Ilt_u))); FBrIf 0; FBasic (BGet 1); FBasic (BGet 2); FCall 158; FBasic (BSet 5); FBr 4; FEnd; FBlock false [] []; FBasic (BGet 2); FBrIf 0; FBasic (BConst (VI32 0%Z)); FBasic (BSet 2); FBasic (BConst (VI32 0%Z)); FBasic (BSet 5); FBr 4; FEnd; FBasic (BGet 2); FBasic (BConst (VI32 3%Z)); FBasic (BOp (SNum2 (B_int W32 Iand))); FBasic (BSet 6); FBlock false [] []; FBlock false [] []; FBasic (BGet 2); FBasic (BConst (VI32 4%Z)); FBasic (BOp (SNum2 (B_irel W32 Ige_u))); FBrIf 0; FBasic (BConst (VI32 0%Z)); FBasic (BSet 5); FBasic (BConst (VI32 0%Z)); FBasic (BSet 7); FBr 1; FEnd; FBasic (BGet 2); FBasic (BConst (VI32 12%Z)); FBasic (BOp (SNum2 (B_int W32 Iand))); FBasic (BSet 4); FBasic (BConst (VI32 0%Z)); FBasic (BSet 5); FBasic (BConst (VI32 0%Z)); FBasic (BSet 7); FBlock true [] []; FBasic (BGet 5); FBasic (BGet 1); FBasic (BGet 7); FBasic (BOp (SNum2 (B_int W32 Iadd))); FBasic (BTee 8); FBasic (BOp (SLoad LI32_8s 0%Z)); FBasic (BConst (VI32 (-65)%Z)); FBasic (BOp (SNum2 (B_irel W32 Igt_s))); FBasic (BOp (SNum2 (B_int W32 Iadd))); FBasic (BGet 8); FBasic (BConst (VI32 1%Z)); FBasic (BOp (SNum2 (B_int W32 Iadd))); FBasic (BOp (SLoad LI32_8s 0%Z)); FBasic (BConst (VI32 (-65)%Z)); FBasic (BOp (SNum2 (B_irel W32 Igt_s))); FBasic (BOp (SNum2 (B_int W32 Iadd))); FBasic (BGet 8); FBasic (BConst (VI32 2%Z)); FBasic (BOp (SNum2 (B_int W32 Iadd))); FBasic (BOp (SLoad LI32_8s 0%Z)); FBasic (BConst (VI32 (-65)%Z)); FBasic (BOp (SNum2 (B_irel W32 Igt_s))); FBasic (BOp (SNum2 (B_int W32 Iadd))); FBasic (BGet 8); FBasic (BConst (VI32 3%Z)); FBasic (BOp (SNum2 (B_int W32 Iadd))); FBasic (BOp (SLoad LI32_8s 0%Z)); FBasic (BConst (VI32 (-65)%Z)); FBasic (BOp (SNum2 (B_irel W32 Igt_s))); FBasic (BOp (SNum2 (B_int W32 Iadd))); FBasic (BSet 5); FBasic (BGet 4); FBasic (BGet 7); FBasic (BConst (VI32 4%Z)); FBasic (BOp (SNum2 (B_int W32 Iadd))); FBasic (BTee 7); FBasic (BOp (SNum2 (B_irel W32 Ine))); FBrIf 0; FEnd; FEnd; FBasic (BGet 6); FBasic (BOp (SNum1 (U_eqz W32))); FBrIf 3; FBasic (BGet 1); FBasic (BGet 7); FBasic (BOp (SNum2 (B_int W32 Iadd))); FBasic (BSet 8); FBlock true [] []; FBasic (BGet 5); FBasic (BGet 8); FBasic (BOp (SLoad LI32_8s 0%Z)); FBasic (BConst (VI32 (-65)%Z)); FBasic (BOp (SNum2 (B_irel W32 Igt_s))); FBasic (BOp (SNum2 (B_int W32 Iadd))); FBasic (BSet 5); FBasic (BGet 8); FBasic (BConst (VI32 1%Z)); FBasic (BOp (SNum2 (B_int W32 Iadd))); FBasic (BSet 8); FBasic (BGet 6); FBasic (BConst (VI32 (-1)%Z)); FBasic (BOp (SNum2 (B_int W32 Iadd))); FBasic (BTee 6); FBrIf 0; FBr 4; FEnd; FEnd; FBasic (BGet 1); FBasic (BGet 2); FBasic (BOp (SNum2 (B_int W32 Iadd))); FBasic (BSet 6); FBasic (BConst (VI32 0%Z)); FBasic (BSet 2); FBasic (BGet 4); FBasic (BSet 7); FBasic (BGet 1); FBasic (BSet 8); FBlock true [] []; FBasic (BGet 8); FBasic (BTee 5); FBasic (BGet 6); FBasic (BOp (SNum2 (B_irel W32 Ieq))); FBrIf 2; FBlock false [] []; FBlock false [] []; FBasic (BGet 5); FBasic (BOp (SLoad LI32_8s 0%Z)); FBasic (BTee 8); FBasic (BConst (VI32 (-1)%Z)); FBasic (BOp (SNum2 (B_irel W32 Ile_s))); FBrIf 0; FBasic (BGet 5); FBasic (BConst (VI32 1%Z)); FBasic (BOp (SNum2 (B_int W32 Iadd))); FBasic (BSet 8); FBr 1; FEnd; FBlock false [] []; FBasic (BGet 8); FBasic (BConst (VI32 (-32)%Z)); FBasic (BOp (SNum2 (B_irel W32 Ige_u))); FBrIf 0; FBasic (BGet 5); FBasic (BConst (VI32 2%Z)); FBasic (BOp (SNum2 (B_int W32 Iadd))); FBasic (BSet 8); FBr 1; FEnd; FBlock false [] []; FBasic (BGet 8); FBasic (BConst (VI32 (-16)%Z)); FBasic (BOp (SNum2 (B_irel W32 Ige_u))); FBrIf 0; FBasic (BGet 5); FBasic (BConst (VI32 3%Z)); FBasic (BOp (SNum2 (B_int W32 Iadd))); FBasic (BSet 8); FBr 1; FEnd; FBasic (BGet 5); FBasic (BConst (VI32 4%Z)); FBasic (BOp (SNum2 (B_int W32 Iadd))); FBasic (BSet 8); FEnd; FBasic (BGet 8); FBasic (BGet 5); FBasic (BOp (SNum2 (B_int W32 Isub))); FBasic (BGet 2); FBasic (BOp (SNum2 (B_int W32 Iadd))); FBasic (BSet 2); FBasic (BGet 7); FBasic (BConst (VI32 (-1)%Z)); FBasic (BOp (SNum2 (B_int W32 Iadd))); FBasic (BTee 7); FBrIf 0; FEnd; FEnd; FBasic (BConst (VI32 0%Z)); FBasic (BSet 7); FEnd; FBasic (BGet 4); FBasic (BGet 7); FBasic (BOp (SNum2 (B_int W32 Isub))); FBasic (BSet 5); FEnd; FBasic (BGet 5); FBasic (BGet 0); FBasic (BOp (SLoad LI32_16u 12%Z)); FBasic (BTee 8); FBasic (BOp (SNum2 (B_irel W32 Ige_u))); FBrIf 0; FBasic (BGet 8); FBasic (BGet 5); FBasic (BOp (SNum2 (B_int W32 Isub))); FBasic (BSet 9); FBasic (BConst (VI32 0%Z)); FBasic (BSet 5); FBasic (BConst (VI32 0%Z)); FBasic (BSet 4); FBlock false [] []; FBlock false [] []; FBlock false [] []; FBasic (BGet 3); FBasic (BConst (VI32 29%Z)); FBasic (BOp (SNum2 (B_int W32 Ishr_u))); FBasic (BConst (VI32 3%Z)); FBasic (BOp (SNum2 (B_int W32 Iand))); FBrTable [2; 0; 1; 2] 2; FEnd; FBasic (BGet 9); FBasic (BSet 4); FBr 1; FEnd; FBasic (BGet 9); FBasic (BConst (VI32 65534%Z)); FBasic (BOp (SNum2 (B_int W32 Iand))); FBasic (BConst (VI32 1%Z)); FBasic (BOp (SNum2 (B_int W32 Ishr_u))); FBasic (BSet 4); FEnd; FBasic (BGet 3); FBasic (BConst (VI32 2097151%Z)); FBasic (BOp (SNum2 (B_int W32 Iand))); FBasic (BSet 6); FBasic (BGet 0); FBasic (BOp (SLoad LI32 4%Z)); FBasic (BSet 7); FBasic (BGet 0); FBasic (BOp (SLoad LI32 0%Z)); FBasic (BSet 0); FBlock false [] []; FBlock true [] []; FBasic (BGet 5); FBasic (BConst (VI32 65535%Z)); FBasic (BOp (SNum2 (B_int W32 Iand))); FBasic (BGet 4); FBasic (BConst (VI32 65535%Z)); FBasic (BOp (SNum2 (B_int W32 Iand))); FBasic (BOp (SNum2 (B_irel W32 Ige_u))); FBrIf 1; FBasic (BConst (VI32 1%Z)); FBasic (BSet 8); FBasic (BGet 5); FBasic (BConst (VI32 1%Z)); FBasic (BOp (SNum2 (B_int W32 Iadd))); FBasic (BSet 5); FBasic (BGet 0); FBasic (BGet 6); FBasic (BGet 7); FBasic (BOp (SLoad LI32 16%Z)); FCallInd 2 0; FBrIf 3; FBr 0; FEnd; FEnd; FBasic (BConst (VI32 1%Z)); FBasic (BSet 8); FBasic (BGet 0); FBasic (BGet 1); FBasic (BGet 2); FBasic (BGet 7); FBasic (BOp (SLoad LI32 12%Z)); FCallInd 5 0; FBrIf 1; FBasic (BConst (VI32 0%Z)); FBasic (BSet 5); FBasic (BGet 9); FBasic (BGet 4); FBasic (BOp (SNum2 (B_int W32 Isub))); FBasic (BConst (VI32 65535%Z)); FBasic (BOp (SNum2 (B_int W32 Iand))); FBasic (BSet 2); FBlock true [] []; FBasic (BGet 5); FBasic (BConst (VI32 65535%Z)); FBasic (BOp (SNum2 (B_int W32 Iand))); FBasic (BTee 4); FBasic (BGet 2); FBasic (BOp (SNum2 (B_irel W32 Ilt_u))); FBasic (BSet 8); FBasic (BGet 4); FBasic (BGet 2); FBasic (BOp (SNum2 (B_irel W32 Ige_u))); FBrIf 2; FBasic (BGet 5); FBasic (BConst (VI32 1%Z)); FBasic (BOp (SNum2 (B_int W32 Iadd))); FBasic (BSet 5); FBasic (BGet 0); FBasic (BGet 6); FBasic (BGet 7); FBasic (BOp (SLoad LI32 16%Z)); FCallInd 2 0; FBrIf 2; FBr 0; FEnd; FEnd; FBasic (BGet 0); FBasic (BOp (SLoad LI32 0%Z)); FBasic (BGet 1); FBasic (BGet 2); FBasic (BGet 0); FBasic (BOp (SLoad LI32 4%Z)); FBasic (BOp (SLoad LI32 12%Z)); FCallInd 5 0; FBasic (BSet 8); FEnd; FBasic (BGet 8); FEnd]; b_bad := false |};
    PCode {| b_locals := [TI32]; b_badlocals := false; b_ops := [FBasic (BOp (SGlobalGet TI32 0)); FBasic (BConst (VI32 32%Z)); FBasic (BOp (SNum2 (B_int W32 Isub))); FBasic (BTee 3); FBasic (BOp (SGlobalSet TI32 0)); FBasic (BGet 3); FBasic (BConst (VI32 0%Z)); FBasic (BOp (SStore SI32 16%Z)); FBasic (BGet 3); FBasic (BConst (VI32 1%Z)); FBasic (BOp (SStore SI32 4%Z)); FBasic (BGet 3); FBasic (BConst (VI64 4%Z)); FBasic (BOp (SStore SI64 8%Z)); FBasic (BGet 3); FBasic (BGet 1); FBasic (BOp (SStore SI32 28%Z)); FBasic (BGet 3); FBasic (BGet 0); FBasic (BOp (SStore SI32 24%Z)); FBasic (BGet 3); FBasic (BGet 3); FBasic (BConst (VI32 24%Z)); FBasic (BOp (SNum2 (B_int W32 Iadd))); FBasic (BOp (SStore SI32 0%Z)); FBasic (BGet 3); FBasic (BGet 2); FCall 152; FUnreachable; FEnd]; b_bad := false |};
    PCode {| b_locals := [TI32]; b_badlocals := false; b_ops := [FBasic (BOp (SGlobalGet TI32 0)); FBasic (BConst (VI32 16%Z)); FBasic (BOp (SNum2 (B_int W32 Isub))); FBasic (BTee 2); FBasic (BOp (SGlobalSet TI32 0)); FBasic (BGet 2); FBasic (BConst (VI32 1%Z)); FBasic (BOp (SStore SI32_16 12%Z)); FBasic (BGet 2); FBasic (BGet 1); FBasic (BOp (SStore SI32 8%Z)); FBasic (BGet 2); FBasic (BGet 0); FBasic (BOp (SStore SI32 4%Z)); FBasic (BGet 2); FBasic (BConst (VI32 4%Z)); FBasic (BOp (SNum2 (B_int W32 Iadd))); FCall 93; FUnreachable; FEnd]; b_bad := false |};
    PCode {| b_locals := [TI32; TI32; TI32; TI32; TI32; TI32; TI32; TI32]; b_badlocals := false; b_ops := [FBasic (BOp (SGlobalGet TI32 0)); FBasic (BConst (VI32 16%Z)); FBasic (BOp (SNum2 (B_int W32 Isub))); FBasic (BTee 3); FBasic (BOp (SGlobalSet TI32 0)); FBasic (BGet 3); FBasic (BGet 1); FBasic (BOp (SStore SI32 4%Z)); FBasic (BGet 3); FBasic (BGet 0); FBasic (BOp (SStore SI32 0%Z)); FBasic (BGet 3); FBasic (BConst (VI64 3758096416%Z)); FBasic (BOp (SStore SI64 8%Z)); FBlock false [] []; FBlock false [] []; FBlock false [] []; FBlock false [] []; FBlock false [] []; FBasic (BGet 2); FBasic (BOp (SLoad LI32 16%Z)); FBasic (BTee 4); FBasic (BOp (SNum1 (U_eqz W32))); FBrIf 0; FBasic (BGet 2); FBasic (BOp (SLoad LI32 20%Z)); FBasic (BTee 1); FBrIf 1; FBr 2; FEnd; FBasic (BGet 2); FBasic (BOp (SLoad LI32 12%Z)); FBasic (BTee 0); FBasic (BOp (SNum1 (U_eqz W32))); FBrIf 1; FBasic (BGet 2); FBasic (BOp (SLoad LI32 8%Z)); FBasic (BTee 1); FBasic (BGet 0); FBasic (BConst (VI32 3%Z)); FBasic (BOp (SNum2 (B_int W32 Ishl))); FBasic (BOp (SNum2 (B_int W32 Iadd))); FBasic (BSet 5); FBasic (BGet 0); FBasic (BConst (VI32 (-1)%Z)); FBasic (BOp (SNum2 (B_int W32 Iadd))); FBasic (BConst (VI32 536870911%Z)); FBasic (BOp (SNum2 (B_int W32 Iand))); FBasic (BConst (VI32 1%Z)); FBasic (BOp (SNum2 (B_int W32 Iadd))); FBasic (BSet 6); FBasic (BGet 2); FBasic (BOp (SLoad LI32 0%Z)); FBasic (BSet 0); FBlock true [] []; FBlock false [] []; FBasic (BGet 0); FBasic (BConst (VI32 4%Z)); FBasic (BOp (SNum2 (B_int W32 Iadd))); FBasic (BOp (SLoad LI32 0%Z)); FBasic (BTee 7); FBasic (BOp (SNum1 (U_eqz W32))); FBrIf 0; FBasic (BGet 3); FBasic (BOp (SLoad LI32 0%Z)); FBasic (BGet 0); FBasic (BOp (SLoad LI32 0%Z)); FBasic (BGet 7); FBasic (BGet 3); FBasic (BOp (SLoad LI32 4%Z)); FBasic (BOp (SLoad LI32 12%Z)); FCallInd 5 0; FBasic (BOp (SNum1 (U_eqz W32))); FBrIf 0; FBasic (BConst (VI32 1%Z)); FBasic (BSet 1); FBr 5; FEnd; FBlock false [] []; FBasic (BGet 1); FBasic (BOp (SLoad LI32 0%Z)); FBasic (BGet 3); FBasic (BGet 1); FBasic (BConst (VI32 4%Z)); FBasic (BOp (SNum2 (B_int W32 Iadd))); FBasic (BOp (SLoad LI32 0%Z)); FCallInd 2 0; FBasic (BOp (SNum1 (U_eqz W32))); FBrIf 0; FBasic (BConst (VI32 1%Z)); FBasic (BSet 1); FBr 5; FEnd; FBasic (BGet 0); FBasic (BConst (VI32 8%Z)); FBasic (BOp (SNum2 (B_int W32 Iadd))); FBasic (BSet 0); FBasic (BGet 1); FBasic (BConst (VI32 8%Z)); FBasic (BOp (SNum2 (B_int W32 Iadd))); FBasic (BTee 1); FBasic (BGet 5); FBasic (BOp (SNum2 (B_irel W32 Ieq))); FBrIf 3; FBr 0; FEnd; FEnd; FBasic (BGet 1); FBasic (BConst (VI32 24%Z)); FBasic (BOp (SNum2 (B_int W32 Imul))); FBasic (BSet 8); FBasic (BGet 1); FBasic (BConst (VI32 (-1)%Z)); FBasic (BOp (SNum2 (B_int W32 Iadd))); FBasic (BConst (VI32 536870911%Z)); FBasic (BOp (SNum2 (B_int W32 Iand))); FBasic (BConst (VI32 1%Z)); FBasic (BOp (SNum2 (B_int W32 Iadd))); FBasic (BSet 6); FBasic (BGet 2); FBasic (BOp (SLoad LI32 8%Z)); FBasic (BSet 9); FBasic (BGet 2); FBasic (BOp (SLoad LI32 0%Z)); FBasic (BSet 0); FBasic (BConst (VI32 0%Z)); FBasic (BSet 7); FBlock true [] []; FBlock false [] []; FBasic (BGet 0); FBasic (BConst (VI32 4%Z)); FBasic (BOp (SNum2 (B_int W32 Iadd))); FBasic (BOp (SLoad LI32 0%Z)); FBasic (BTee 1); FBasic (BOp (SNum1 (U_eqz W32))); FBrIf 0; FBasic (BGet 3); FBasic (BOp (SLoad LI32 0%Z)); FBasic (BGet 0); FBasic (BOp (SLoad LI32 0%Z)); FBasic (BGet 1); FBasic (BGet 3); FBasic (BOp (SLoad LI32 4%Z)); FBasic (BOp (SLoad LI32 12%Z)); FCallInd 5 0; FBasic (BOp (SNum1 (U_eqz W32))); FBrIf 0; FBasic (BConst (VI32 1%Z)); FBasic (BSet 1); FBr 4; FEnd; FBasic (BConst (VI32 0%Z)); FBasic (BSet 5); FBasic (BConst (VI32 0%Z)); FBasic (BSet 10); FBlock false [] []; FBlock false [] []; FBlock false [] []; FBasic (BGet 4); FBasic (BGet 7); FBasic (BOp (SNum2 (B_int W32 Iadd))); FBasic (BTee 1); FBasic (BConst (VI32 8%Z)); FBasic (BOp (SNum2 (B_int W32 Iadd))); FBasic (BOp (SLoad LI32_16u 0%Z)); FBrTable [0; 1; 2] 0; FEnd; FBasic (BGet 1); FBasic (BConst (VI32 10%Z)); FBasic (BOp (SNum2 (B_int W32 Iadd))); FBasic (BOp (SLoad LI32_16u 0%Z)); FBasic (BSet 10); FBr 1; FEnd; FBasic (BGet 9); FBasic (BGet 1); FBasic (BConst (VI32 12%Z)); FBasic (BOp (SNum2 (B_int W32 Iadd))); FBasic (BOp (SLoad LI32 0%Z)); FBasic (BConst (VI32 3%Z)); FBasic (BOp (SNum2 (B_int W32 Ishl))); FBasic (BOp (SNum2 (B_int W32 Iadd))); FBasic (BOp (SLoad LI32_16u 4%Z)); FBasic (BSet 10); FEnd; FBlock false [] []; FBlock false [] []; FBlock false [] []; FBasic (BGet 1); FBasic (BOp (SLoad LI32_16u 0%Z)); FBrTable [0; 1; 2] 0; FEnd; FBasic (BGet 1); FBasic (BConst (VI32 2%Z)); FBasic (BOp (SNum2 (B_int W32 Iadd))); FBasic (BOp (SLoad LI32_16u 0%Z)); FBasic (BSet 5); FBr 1; FEnd; FBasic (BGet 9); FBasic (BGet 1); FBasic (BConst (VI32 4%Z)); FBasic (BOp (SNum2 (B_int W32 Iadd))); FBasic (BOp (SLoad LI32 0%Z)); FBasic (BConst (VI32 3%Z)); FBasic (BOp (SNum2 (B_int W32 Ishl))); FBasic (BOp (SNum2 (B_int W32 Iadd))); FBasic (BOp (SLoad LI32_16u 4%Z)); FBasic (BSet 5); FEnd; FBasic (BGet 3); FBasic (BGet 5); FBasic (BOp (SStore SI32_16 14%Z)); FBasic (BGet 3); FBasic (BGet 10); FBasic (BOp (SStore SI32_16 12%Z)); FBasic (BGet 3); FBasic (BGet 1); FBasic (BConst (VI32 20%Z)); FBasic (BOp (SNum2 (B_int W32 Iadd))); FBasic (BOp (SLoad LI32 0%Z)); FBasic (BOp (SStore SI32 8%Z)); FBlock false [] []; FBasic (BGet 9); FBasic (BGet 1); FBasic (BConst (VI32 16%Z)); FBasic (BOp (SNum2 (B_int W32 Iadd))); FBasic (BOp (SLoad LI32 0%Z)); FBasic (BConst (VI32 3%Z)); FBasic (BOp (SNum2 (B_int W32 Ishl))); FBasic (BOp (SNum2 (B_int W32 Iadd))); FBasic (BTee 1); FBasic (BOp (SLoad LI32 0%Z)); FBasic (BGet 3); FBasic (BGet 1); FBasic (BOp (SLoad LI32 4%Z)); FCallInd 2 0; FBasic (BOp (SNum1 (U_eqz W32))); FBrIf 0; FBasic (BConst (VI32 1%Z)); FBasic (BSet 1); FBr 4; FEnd; FBasic (BGet 0); FBasic (BConst (VI32 8%Z)); FBasic (BOp (SNum2 (B_int W32 Iadd))); FBasic (BSet 0); FBasic (BGet 8); FBasic (BGet 7); FBasic (BConst (VI32 24%Z)); FBasic (BOp (SNum2 (B_int W32 Iadd))); FBasic (BTee 7); FBasic (BOp (SNum2 (B_irel W32 Ieq))); FBrIf 2; FBr 0; FEnd; FEnd; FBasic (BConst (VI32 0%Z)); FBasic (BSet 6); FEnd; FBlock false [] []; FBasic (BGet 6); FBasic (BGet 2); FBasic (BOp (SLoad LI32 4%Z)); FBasic (BOp (SNum2 (B_irel W32 Ige_u))); FBrIf 0; FBasic (BGet 3); FBasic (BOp (SLoad LI32 0%Z)); FBasic (BGet 2); FBasic (BOp (SLoad LI32 0%Z)); FBasic (BGet 6); FBasic (BConst (VI32 3%Z)); FBasic (BOp (SNum2 (B_int W32 Ishl))); FBasic (BOp (SNum2 (B_int W32 Iadd))); FBasic (BTee 1); FBasic (BOp (SLoad LI32 0%Z)); FBasic (BGet 1); FBasic (BOp (SLoad LI32 4%Z)); FBasic (BGet 3); FBasic (BOp (SLoad LI32 4%Z)); FBasic (BOp (SLoad LI32 12%Z)); FCallInd 5 0; FBasic (BOp (SNum1 (U_eqz W32))); FBrIf 0; FBasic (BConst (VI32 1%Z)); FBasic (BSet 1); FBr 1; FEnd; FBasic (BConst (VI32 0%Z)); FBasic (BSet 1); FEnd; FBasic (BGet 3); FBasic (BConst (VI32 16%Z)); FBasic (BOp (SNum2 (B_int W32 Iadd))); FBasic (BOp (SGlobalSet TI32 0)); FBasic (BGet 1); FEnd]; b_bad := false |};
    PCode {| b_locals := [TI32; TI32; TI32; TI32]; b_badlocals := false; b_ops := [FBasic (BOp (SGlobalGet TI32 0)); FBasic (BConst (VI32 128%Z)); FBasic (BOp (SNum2 (B_int W32 Isub))); FBasic (BTee 2); FBasic (BOp (SGlobalSet TI32 0)); FBlock false [] []; FBlock false [] []; FBlock false [] []; FBlock false [] []; FBasic (BGet 1); FBasic (BOp (SLoad LI32 8%Z)); FBasic (BTee 3); FBasic (BConst (VI32 33554432%Z)); FBasic (BOp (SNum2 (B_int W32 Iand))); FBrIf 0; FBasic (BGet 3); FBasic (BConst (VI32 67108864%Z)); FBasic (BOp (SNum2 (B_int W32 Iand))); FBrIf 1; FBasic (BConst (VI32 1%Z)); FBasic (BSet 3); FBasic (BGet 0); FBasic (BOp (SLoad LI32 0%Z)); FBasic (BConst (VI32 1%Z)); FBasic (BGet 1); FCall 155; FBasic (BOp (SNum1 (U_eqz W32))); FBrIf 2; FBr 3; FEnd; FBasic (BGet 0); FBasic (BOp (SLoad LI32 0%Z)); FBasic (BSet 3); FBasic (BConst (VI32 0%Z)); FBasic (BSet 4); FBlock true [] []; FBasic (BGet 2); FBasic (BGet 4); FBasic (BOp (SNum2 (B_int W32 Iadd))); FBasic (BConst (VI32 127%Z)); FBasic (BOp (SNum2 (B_int W32 Iadd))); FBasic (BGet 3); FBasic (BConst (VI32 15%Z)); FBasic (BOp (SNum2 (B_int W32 Iand))); FBasic (BTee 5); FBasic (BConst (VI32 48%Z)); FBasic (BOp (SNum2 (B_int W32 Ior))); FBasic (BGet 5); FBasic (BConst (VI32 87%Z)); FBasic (BOp (SNum2 (B_int W32 Iadd))); FBasic (BGet 5); FBasic (BConst (VI32 10%Z)); FBasic (BOp (SNum2 (B_irel W32 Ilt_u))); FBasic (BSelect None); FBasic (BOp (SStore SI32_8 0%Z)); FBasic (BGet 4); FBasic (BConst (VI32 (-1)%Z)); FBasic (BOp (SNum2 (B_int W32 Iadd))); FBasic (BSet 4); FBasic (BGet 3); FBasic (BConst (VI32 16%Z)); FBasic (BOp (SNum2 (B_irel W32 Ilt_u))); FBasic (BSet 5); FBasic (BGet 3); FBasic (BConst (VI32 4%Z)); FBasic (BOp (SNum2 (B_int W32 Ishr_u))); FBasic (BSet 3); FBasic (BGet 5); FBasic (BOp (SNum1 (U_eqz W32))); FBrIf 0; FEnd; FBasic (BConst (VI32 1%Z)); FBasic (BSet 3); FBasic (BGet 1); FBasic (BConst (VI32 1%Z)); FBasic (BConst (VI32 1054805%Z)); FBasic (BConst (VI32 2%Z)); FBasic (BGet 2); FBasic (BGet 4); FBasic (BOp (SNum2 (B_int W32 Iadd))); FBasic (BConst (VI32 128%Z)); FBasic (BOp (SNum2 (B_int W32 Iadd))); FBasic (BConst (VI32 0%Z)); FBasic (BGet 4); FBasic (BOp (SNum2 (B_int W32 Isub))); FCall 156; FBasic (BOp (SNum1 (U_eqz W32))); FBrIf 1; FBr 2; FEnd; FBasic (BGet 0); FBasic (BOp (SLoad LI32 0%Z)); FBasic (BSet 3); FBasic (BConst (VI32 0%Z)); FBasic (BSet 4); FBlock true [] []; FBasic (BGet 2); FBasic (BGet 4); FBasic (BOp (SNum2 (B_int W32 Iadd))); FBasic (BConst (VI32 127%Z)); FBasic (BOp (SNum2 (B_int W32 Iadd))); FBasic (BGet 3); FBasic (BConst (VI32 15%Z)); FBasic (BOp (SNum2 (B_int W32 Iand))); FBasic (BTee 5); FBasic (BConst (VI32 48%Z)); FBasic (BOp (SNum2 (B_int W32 Ior))); FBasic (BGet 5); FBasic (BConst (VI32 55%Z)); FBasic (BOp (SNum2 (B_int W32 Iadd))); FBasic (BGet 5); FBasic (BConst (VI32 10%Z)); FBasic (BOp (SNum2 (B_irel W32 Ilt_u))); FBasic (BSelect None); FBasic (BOp (SStore SI32_8 0%Z)); FBasic (BGet 4); FBasic (BConst (VI32 (-1)%Z)); FBasic (BOp (SNum2 (B_int W32 Iadd))); FBasic (BSet 4); FBasic (BGet 3); FBasic (BConst (VI32 15%Z)); FBasic (BOp (SNum2 (B_irel W32 Igt_u))); FBasic (BSet 5); FBasic (BGet 3); FBasic (BConst (VI32 4%Z)); FBasic (BOp (SNum2 (B_int W32 Ishr_u))); FBasic (BSet 3); FBasic (BGet 5); FBrIf 0; FEnd; FBasic (BConst (VI32 1%Z)); FBasic (BSet 3); FBasic (BGet 1); FBasic (BConst (VI32 1%Z)); FBasic (BConst (VI32 1054805%Z)); FBasic (BConst (VI32 2%Z)); FBasic (BGet 2); FBasic (BGet 4); FBasic (BOp (SNum2 (B_int W32 Iadd))); FBasic (BConst (VI32 128%Z)); FBasic (BOp (SNum2 (B_int W32 Iadd))); FBasic (BConst (VI32 0%Z)); FBasic (BGet 4); FBasic (BOp (SNum2 (B_int W32 Isub))); FCall 156; FBrIf 1; FEnd; FBasic (BConst (VI32 1%Z)); FBasic (BSet 3); FBasic (BGet 1); FBasic (BOp (SLoad LI32 0%Z)); FBasic (BConst (VI32 1054451%Z)); FBasic (BConst (VI32 2%Z)); FBasic (BGet 1); FBasic (BOp (SLoad LI32 4%Z)); FBasic (BOp (SLoad LI32 12%Z)); FCallInd 5 0; FBrIf 0; FBlock false [] []; FBlock false [] []; FBasic (BGet 1); FBasic (BOp (SLoad LI32 8%Z)); FBasic (BTee 3); FBasic (BConst (VI32 33554432%Z)); FBasic (BOp (SNum2 (B_int W32 Iand))); FBrIf 0; FBasic (BGet 3); FBasic (BConst (VI32 67108864%Z)); FBasic (BOp (SNum2 (B_int W32 Iand))); FBrIf 1; FBasic (BGet 0); FBasic (BOp (SLoad LI32 4%Z)); FBasic (BConst (VI32 1%Z)); FBasic (BGet 1); FCall 155; FBasic (BSet 3); FBr 2; FEnd; FBasic (BGet 0); FBasic (BOp (SLoad LI32 4%Z)); FBasic (BSet 3); FBasic (BConst (VI32 0%Z)); FBasic (BSet 4); FBlock true [] []; FBasic (BGet 2); FBasic (BGet 4); FBasic (BOp (SNum2 (B_int W32 Iadd))); FBasic (BConst (VI32 127%Z)); FBasic (BOp (SNum2 (B_int W32 Iadd))); FBasic (BGet 3); FBasic (BConst (VI32 15%Z)); FBasic (BOp (SNum2 (B_int W32 Iand))); FBasic (BTee 5); FBasic (BConst (VI32 48%Z)); FBasic (BOp (SNum2 (B_int W32 Ior))); FBasic (BGet 5); FBasic (BConst (VI32 87%Z)); FBasic (BOp (SNum2 (B_int W32 Iadd))); FBasic (BGet 5); FBasic (BConst (VI32 10%Z)); FBasic (BOp (SNum2 (B_irel W32 Ilt_u))); FBasic (BSelect None); FBasic (BOp (SStore SI32_8 0%Z)); FBasic (BGet 4); FBasic (BConst (VI32 (-1)%Z)); FBasic (BOp (SNum2 (B_int W32 Iadd))); FBasic (BSet 4); FBasic (BGet 3); FBasic (BConst (VI32 15%Z)); FBasic (BOp (SNum2 (B_irel W32 Igt_u))); FBasic (BSet 5); FBasic (BGet 3); FBasic (BConst (VI32 4%Z)); FBasic (BOp (SNum2 (B_int W32 Ishr_u))); FBasic (BSet 3); FBasic (BGet 5); FBrIf 0; FEnd; FBasic (BGet 1); FBasic (BConst (VI32 1%Z)); FBasic (BConst (VI32 1054805%Z)); FBasic (BConst (VI32 2%Z)); FBasic (BGet 2); FBasic (BGet 4); FBasic (BOp (SNum2 (B_int W32 Iadd))); FBasic (BConst (VI32 128%Z)); FBasic (BOp (SNum2 (B_int W32 Iadd))); FBasic (BConst (VI32 0%Z)); FBasic (BGet 4); FBasic (BOp (SNum2 (B_int W32 Isub))); FCall 156; FBasic (BSet 3); FBr 1; FEnd; FBasic (BGet 0); FBasic (BOp (SLoad LI32 4%Z)); FBasic (BSet 3); FBasic (BConst (VI32 0%Z)); FBasic (BSet 4); FBlock true [] []; FBasic (BGet 2); FBasic (BGet 4); FBasic (BOp (SNum2 (B_int W32 Iadd))); FBasic (BConst (VI32 127%Z)); FBasic (BOp (SNum2 (B_int W32 Iadd))); FBasic (BGet 3); FBasic (BConst (VI32 15%Z)); FBasic (BOp (SNum2 (B_int W32 Iand))); FBasic (BTee 5); FBasic (BConst (VI32 48%Z)); FBasic (BOp (SNum2 (B_int W32 Ior))); FBasic (BGet 5); FBasic (BConst (VI32 55%Z)); FBasic (BOp (SNum2 (B_int W32 Iadd))); FBasic (BGet 5); FBasic (BConst (VI32 10%Z)); FBasic (BOp (SNum2 (B_irel W32 Ilt_u))); FBasic (BSelect None); FBasic (BOp (SStore SI32_8 0%Z)); FBasic (BGet 4); FBasic (BConst (VI32 (-1)%Z)); FBasic (BOp (SNum2 (B_int W32 Iadd))); FBasic (BSet 4); FBasic (BGet 3); FBasic (BConst (VI32 15%Z)); FBasic (BOp (SNum2 (B_irel W32 Igt_u))); FBasic (BSet 5); FBasic (BGet 3); FBasic (BConst (VI32 4%Z)); FBasic (BOp (SNum2 (B_int W32 Ishr_u))); FBasic (BSet 3); FBasic (BGet 5); FBrIf 0; FEnd; FBasic (BGet 1); FBasic (BConst (VI32 1%Z)); FBasic (BConst (VI32 1054805%Z)); FBasic (BConst (VI32 2%Z)); FBasic (BGet 2); FBasic (BGet 4); FBasic (BOp (SNum2 (B_int W32 Iadd))); FBasic (BConst (VI32 128%Z)); FBasic (BOp (SNum2 (B_int W32 Iadd))); FBasic (BConst (VI32 0%Z)); FBasic (BGet 4); FBasic (BOp (SNum2 (B_int W32 Isub))); FCall 156; FBasic (BSet 3); FEnd; FBasic (BGet 2); FBasic (BConst (VI32 128%Z)); FBasic (BOp (SNum2 (B_int W32 Iadd))); FBasic (BOp (SGlobalSet TI32 0)); FBasic (BGet 3); FEnd]; b_bad := false |};
    PCode {| b_locals := [TI32; TI32; TI32; TI32; TI32; TI32; TI32; TI32]; b_badlocals := false; b_ops := [FBasic (BOp (SGlobalGet TI32 0)); FBasic (BConst (VI32 16%Z)); FBasic (BOp (SNum2 (B_int W32 Isub))); FBasic (BTee 3); FBasic (BOp (SGlobalSet TI32 0)); FBasic (BConst (VI32 10%Z)); FBasic (BSet 4); FBasic (BGet 0); FBasic (BSet 5); FBlock false [] []; FBasic (BGet 0); FBasic (BConst (VI32 1000%Z)); FBasic (BOp (SNum2 (B_irel W32 Ilt_u))); FBrIf 0; FBasic (BConst (VI32 10%Z)); FBasic (BSet 4); FBasic (BGet 0); FBasic (BSet 6); FBlock true [] []; FBasic (BGet 3); FBasic (BConst (VI32 6%Z)); FBasic (BOp (SNum2 (B_int W32 Iadd))); FBasic (BGet 4); FBasic (BOp (SNum2 (B_int W32 Iadd))); FBasic (BTee 7); FBasic (BConst (VI32 (-3)%Z)); FBasic (BOp (SNum2 (B_int W32 Iadd))); FBasic (BGet 6); FBasic (BGet 6); FBasic (BConst (VI32 10000%Z)); FBasic (BOp (SNum2 (B_int W32 Idiv_u))); FBasic (BTee 5); FBasic (BConst (VI32 10000%Z)); FBasic (BOp (SNum2 (B_int W32 Imul))); FBasic (BOp (SNum2 (B_int W32 Isub))); FBasic (BTee 8); FBasic (BConst (VI32 65535%Z)); FBasic (BOp (SNum2 (B_int W32 Iand))); FBasic (BConst (VI32 100%Z)); FBasic (BOp (SNum2 (B_int W32 Idiv_u))); FBasic (BTee 9); FBasic (BConst (VI32 1%Z)); FBasic (BOp (SNum2 (B_int W32 Ishl))); FBasic (BTee 10); FBasic (BConst (VI32 1054808%Z)); FBasic (BOp (SNum2 (B_int W32 Iadd))); FBasic (BOp (SLoad LI32_8u 0%Z)); FBasic (BOp (SStore SI32_8 0%Z)); FBasic (BGet 7); FBasic (BConst (VI32 (-4)%Z)); FBasic (BOp (SNum2 (B_int W32 Iadd))); FBasic (BGet 10); FBasic (BConst (VI32 1054807%Z)); FBasic (BOp (SNum2 (B_int W32 Iadd))); FBasic (BOp (SLoad LI32_8u 0%Z)); FBasic (BOp (SStore SI32_8 0%Z)); FBasic (BGet 7); FBasic (BConst (VI32 (-1)%Z)); FBasic (BOp (SNum2 (B_int W32 Iadd))); FBasic (BGet 8); FBasic (BGet 9); FBasic (BConst (VI32 100%Z)); FBasic (BOp (SNum2 (B_int W32 Imul))); FBasic (BOp (SNum2 (B_int W32 Isub))); FBasic (BConst (VI32 65535%Z)); FBasic (BOp (SNum2 (B_int W32 Iand))); FBasic (BConst (VI32 1%Z)); FBasic (BOp (SNum2 (B_int W32 Ishl))); FBasic (BTee 8); FBasic (BConst (VI32 1054808%Z)); FBasic (BOp (SNum2 (B_int W32 Iadd))); FBasic (BOp (SLoad LI32_8u 0%Z)); FBasic (BOp (SStore SI32_8 0%Z)); FBasic (BGet 7); FBasic (BConst (VI32 (-2)%Z)); FBasic (BOp (SNum2 (B_int W32 Iadd))); FBasic (BGet 8); FBasic (BConst (VI32 1054807%Z)); FBasic (BOp (SNum2 (B_int W32 Iadd))); FBasic (BOp (SLoad LI32_8u 0%Z)); FBasic (BOp (SStore SI32_8 0%Z)); FBasic (BGet 4); FBasic (BConst (VI32 (-4)%Z)); FBasic (BOp (SNum2 (B_int W32 Iadd))); FBasic (BSet 4); FBasic (BGet 6); FBasic (BConst (VI32 9999999%Z)); FBasic (BOp (SNum2 (B_irel W32 Igt_u))); FBasic (BSet 7); FBasic (BGet 5); FBasic (BSet 6); FBasic (BGet 7); FBrIf 0; FEnd; FEnd; FBlock false [] []; FBlock false [] []; FBasic (BGet 5); FBasic (BConst (VI32 9%Z)); FBasic (BOp (SNum2 (B_irel W32 Igt_u))); FBrIf 0; FBasic (BGet 5); FBasic (BSet 6); FBr 1; FEnd; FBasic (BGet 3); FBasic (BConst (VI32 6%Z)); FBasic (BOp (SNum2 (B_int W32 Iadd))); FBasic (BGet 4); FBasic (BOp (SNum2 (B_int W32 Iadd))); FBasic (BConst (VI32 (-1)%Z)); FBasic (BOp (SNum2 (B_int W32 Iadd))); FBasic (BGet 5); FBasic (BGet 5); FBasic (BConst (VI32 65535%Z)); FBasic (BOp (SNum2 (B_int W32 Iand))); FBasic (BConst (VI32 100%Z)); FBasic (BOp (SNum2 (B_int W32 Idiv_u))); FBasic (BTee 6); FBasic (BConst (VI32 100%Z)); FBasic (BOp (SNum2 (B_int W32 Imul))); FBasic (BOp (SNum2 (B_int W32 Isub))); FBasic (BConst (VI32 65535%Z)); FBasic (BOp (SNum2 (B_int W32 Iand))); FBasic (BConst (VI32 1%Z)); FBasic (BOp (SNum2 (B_int W32 Ishl))); FBasic (BTee 7); FBasic (BConst (VI32 1054808%Z)); FBasic (BOp (SNum2 (B_int W32 Iadd))); FBasic (BOp (SLoad LI32_8u 0%Z)); FBasic (BOp (SStore SI32_8 0%Z)); FBasic (BGet 3); FBasic (BConst (VI32 6%Z)); FBasic (BOp (SNum2 (B_int W32 Iadd))); FBasic (BGet 4); FBasic (BConst (VI32 (-2)%Z)); FBasic (BOp (SNum2 (B_int W32 Iadd))); FBasic (BTee 4); FBasic (BOp (SNum2 (B_int W32 Iadd))); FBasic (BGet 7); FBasic (BConst (VI32 1054807%Z)); FBasic (BOp (SNum2 (B_int W32 Iadd))); FBasic (BOp (SLoad LI32_8u 0%Z)); FBasic (BOp (SStore SI32_8 0%Z)); FEnd; FBlock false [] []; FBlock false [] []; FBasic (BGet 0); FBasic (BOp (SNum1 (U_eqz W32))); FBrIf 0; FBasic (BGet 6); FBasic (BOp (SNum1 (U_eqz W32))); FBrIf 1; FEnd; FBasic (BGet 3); FBasic (BConst (VI32 6%Z)); FBasic (BOp (SNum2 (B_int W32 Iadd))); FBasic (BGet 4); FBasic (BConst (VI32 (-1)%Z)); FBasic (BOp (SNum2 (B_int W32 Iadd))); FBasic (BTee 4); FBasic (BOp (SNum2 (B_int W32 Iadd))); FBasic (BGet 6); FBasic (BConst (VI32 1%Z)); FBasic (BOp (SNum2 (B_int W32 Ishl))); FBasic (BConst (VI32 30%Z)); FBasic (BOp (SNum2 (B_int W32 Iand))); FBasic (BConst (VI32 1054808%Z)); FBasic (BOp (SNum2 (B_int W32 Iadd))); FBasic (BOp (SLoad LI32_8u 0%Z)); FBasic (BOp (SStore SI32_8 0%Z)); FEnd; FBasic (BGet 2); FBasic (BGet 1); FBasic (BConst (VI32 1%Z)); FBasic (BConst (VI32 0%Z)); FBasic (BGet 3); FBasic (BConst (VI32 6%Z)); FBasic (BOp (SNum2 (B_int W32 Iadd))); FBasic (BGet 4); FBasic (BOp (SNum2 (B_int W32 Iadd))); FBasic (BConst (VI32 10%Z)); FBasic (BGet 4); FBasic (BOp (SNum2 (B_int W32 Isub))); FCall 156; FBasic (BSet 6); FBasic (BGet 3); FBasic (BConst (VI32 16%Z)); FBasic (BOp (SNum2 (B_int W32 Iadd))); FBasic (BOp (SGlobalSet TI32 0)); FBasic (BGet 6); FEnd]; b_bad := false |};
    PCode {| b_locals := [TI32; TI32; TI32; TI32; TI32; TI32; TI32; TI32; TI64]; b_badlocals := false; b_ops := [FBlock false [] []; FBlock false [] []; FBasic (BGet 1); FBrIf 0; FBasic (BGet 5); FBasic (BConst (VI32 1%Z)); FBasic (BOp (SNum2 (B_int W32 Iadd))); FBasic (BSet 6); FBasic (BGet 0); FBasic (BOp (SLoad LI32 8%Z)); FBasic (BSet 7); FBasic (BConst (VI32 45%Z)); FBasic (BSet 8); FBr 1; FEnd; FBasic (BConst (VI32 43%Z)); FBasic (BConst (VI32 1114112%Z)); FBasic (BGet 0); FBasic (BOp (SLoad LI32 8%Z)); FBasic (BTee 7); FBasic (BConst (VI32 2097152%Z)); FBasic (BOp (SNum2 (B_int W32 Iand))); FBasic (BTee 1); FBasic (BSelect None); FBasic (BSet 8); FBasic (BGet 1); FBasic (BConst (VI32 21%Z)); FBasic (BOp (SNum2 (B_int W32 Ishr_u))); FBasic (BGet 5); FBasic (BOp (SNum2 (B_int W32 Iadd))); FBasic (BSet 6); FEnd; FBlock false [] []; FBlock false [] []; FBasic (BGet 7); FBasic (BConst (VI32 8388608%Z)); FBasic (BOp (SNum2 (B_int W32 Iand))); FBrIf 0; FBasic (BConst (VI32 0%Z)); FBasic (BSet 2); FBr 1; FEnd; FBlock false [] []; FBlock false [] []; FBasic (BGet 3); FBasic (BConst (VI32 16%Z)); FBasic (BOp (SNum2 (B_irel W32 Ilt_u))); FBrIf 0; FBasic (BGet 2); FBasic (BGet 3); FCall 158; FBasic (BSet 1); FBr 1; FEnd; FBlock false [] []; FBasic (BGet 3); FBrIf 0; FBasic (BConst (VI32 0%Z)); FBasic (BSet 1); FBr 1; FEnd; FBasic (BGet 3); FBasic (BConst (VI32 3%Z)); FBasic (BOp (SNum2 (B_int W32 Iand))); FBasic (BSet 9); FBlock false [] []; FBlock false [] []; FBasic (BGet 3); FBasic (BConst (VI32 4%Z)); FBasic (BOp (SNum2 (B_irel W32 Ige_u))); FBrIf 0; FBasic (BConst (VI32 0%Z)); FBasic (BSet 1); FBasic (BConst (VI32 0%Z)); FBasic (BSet 10); FBr 1; FEnd; FBasic (BGet 3); FBasic (BConst (VI32 12%Z)); FBasic (BOp (SNum2 (B_int W32 Iand))); FBasic (BSet 11); FBasic (BConst (VI32 0%Z)); FBasic (BSet 1); FBasic (BConst (VI32 0%Z)); FBasic (BSet 10); FBlock true [] []; FBasic (BGet 1); FBasic (BGet 2); FBasic (BGet 10); FBasic (BOp (SNum2 (B_int W32 Iadd))); FBasic (BTee 12); FBasic (BOp (SLoad LI32_8s 0%Z)); FBasic (BConst (VI32 (-65)%Z)); FBasic (BOp (SNum2 (B_irel W32 Igt_s))); FBasic (BOp (SNum2 (B_int W32 Iadd))); FBasic (BGet 12); FBasic (BConst (VI32 1%Z)); FBasic (BOp (SNum2 (B_int W32 Iadd))); FBasic (BOp (SLoad LI32_8s 0%Z)); FBasic (BConst (VI32 (-65)%Z)); FBasic (BOp (SNum2 (B_irel W32 Igt_s))); FBasic (BOp (SNum2 (B_int W32 Iadd))); FBasic (BGet 12); FBasic (BConst (VI32 2%Z)); FBasic (BOp (SNum2 (B_int W32 Iadd))); FBasic (BOp (SLoad LI32_8s 0%Z)); FBasic (BConst (VI32 (-65)%Z)); FBasic (BOp (SNum2 (B_irel W32 Igt_s))); FBasic (BOp (SNum2 (B_int W32 Iadd))); FBasic (BGet 12); FBasic (BConst (VI32 3%Z)); FBasic (BOp (SNum2 (B_int W32 Iadd))); FBasic (BOp (SLoad LI32_8s 0%Z)); FBasic (BConst (VI32 (-65)%Z)); FBasic (BOp (SNum2 (B_irel W32 Igt_s))); FBasic (BOp (SNum2 (B_int W32 Iadd))); FBasic (BSet 1); FBasic (BGet 11); FBasic (BGet 10); FBasic (BConst (VI32 4%Z)); FBasic (BOp (SNum2 (B_int W32 Iadd))); FBasic (BTee 10); FBasic (BOp (SNum2 (B_irel W32 Ine))); FBrIf 0; FEnd; FEnd; FBasic (BGet 9); FBasic (BOp (SNum1 (U_eqz W32))); FBrIf 0; FBasic (BGet 2); FBasic (BGet 10); FBasic (BOp (SNum2 (B_int W32 Iadd))); FBasic (BSet 12); FBlock true [] []; FBasic (BGet 1); FBasic (BGet 12); FBasic (BOp (SLoad LI32_8s 0%Z)); FBasic (BConst (VI32 (-65)%Z)); FBasic (BOp (SNum2 (B_irel W32 Igt_s))); FBasic (BOp (SNum2 (B_int W32 Iadd))); FBasic (BSet 1); FBasic (BGet 12); FBasic (BConst (VI32 1%Z)); FBasic (BOp (SNum2 (B_int W32 Iadd))); FBasic (BSet 12); FBasic (BGet 9); FBasic (BConst (VI32 (-1)%Z)); FBasic (BOp (SNum2 (B_int W32 Iadd))); FBasic (BTee 9); FBrIf 0; FEnd; FEnd; FBasic (BGet 1); FBasic (BGet 6); FBasic (BOp (SNum2 (B_int W32 Iadd))); FBasic (BSet 6); FEnd; FBlock false [] []; FBlock false [] []; FBasic (BGet 6); FBasic (BGet 0); FBasic (BOp (SLoad LI32_16u 12%Z)); FBasic (BTee 11); FBasic (BOp (SNum2 (B_irel W32 Ige_u))); FBrIf 0; FBlock false [] []; FBlock false [] []; FBlock false [] []; FBasic (BGet 7); FBasic (BConst (VI32 16777216%Z)); FBasic (BOp (SNum2 (B_int W32 Iand))); FBrIf 0; FBasic (BGet 11); FBasic (BGet 6); FBasic (BOp (SNum2 (B_int W32 Isub))); FBasic (BSet 13); FBasic (BConst (VI32 0%Z)); FBasic (BSet 1); FBasic (BConst (VI32 0%Z)); FBasic (BSet 11); FBlock false [] []; FBlock false [] []; FBlock false [] []; FBasic (BGet 7); FBasic (BConst (VI32 29%Z)); FBasic (BOp (SNum2 (B_int W32 Ishr_u))); FBasic (BConst (VI32 3%Z)); FBasic (BOp (SNum2 (B_int W32 Iand))); FBrTable [2; 0; 1; 0] 2; FEnd; FBasic (BGet 13); FBasic (BSet 11); FBr 1; FEnd; FBasic (BGet 13); FBasic (BConst (VI32 65534%Z)); FBasic (BOp (SNum2 (B_int W32 Iand))); FBasic (BConst (VI32 1%Z)); FBasic (BOp (SNum2 (B_int W32 Ishr_u))); FBasic (BSet 11); FEnd; FBasic (BGet 7); FBasic (BConst (VI32 2097151%Z)); FBasic (BOp (SNum2 (B_int W32 Iand))); FBasic (BSet 6); FBasic (BGet 0); FBasic (BOp (SLoad LI32 4%Z)); FBasic (BSet 9); FBasic (BGet 0); FBasic (BOp (SLoad LI32 0%Z)); FBasic (BSet 10); FBlock true [] []; FBasic (BGet 1); FBasic (BConst (VI32 65535%Z)); FBasic (BOp (SNum2 (B_int W32 Iand))); FBasic (BGet 11); FBasic (BConst (VI32 65535%Z)); FBasic (BOp (SNum2 (B_int W32 Iand))); FBasic (BOp (SNum2 (B_irel W32 Ige_u))); FBrIf 2; FBasic (BConst (VI32 1%Z)); FBasic (BSet 12); FBasic (BGet 1); FBasic (BConst (VI32 1%Z)); FBasic (BOp (SNum2 (B_int W32 Iadd))); FBasic (BSet 1); FBasic (BGet 10); FBasic (BGet 6); FBasic (BGet 9); FBasic (BOp (SLoad LI32 16%Z)); FCallInd 2 0; FBasic (BOp (SNum1 (U_eqz W32))); FBrIf 0; FBr 5; FEnd; FEnd; FBasic (BGet 0); FBasic (BGet 0); FBasic (BOp (SLoad LI64 8%Z)); FBasic (BTee 14); FBasic (BOp (SCvt (C_wrap))); FBasic (BConst (VI32 (-1612709888)%Z)); FBasic (BOp (SNum2 (B_int W32 Iand))); FBasic (BConst (VI32 536870960%Z)); FBasic (BOp (SNum2 (B_int W32 Ior))); FBasic (BOp (SStore SI32 8%Z)); FBasic (BConst (VI32 1%Z)); FBasic (BSet 12); FBasic (BGet 0); FBasic (BOp (SLoad LI32 0%Z)); FBasic (BTee 10); FBasic (BGet 0); FBasic (BOp (SLoad LI32 4%Z)); FBasic (BTee 9); FBasic (BGet 8); FBasic (BGet 2); FBasic (BGet 3); FCall 181; FBrIf 3; FBasic (BConst (VI32 0%Z)); FBasic (BSet 1); FBasic (BGet 11); FBasic (BGet 6); FBasic (BOp (SNum2 (B_int W32 Isub))); FBasic (BConst (VI32 65535%Z)); FBasic (BOp (SNum2 (B_int W32 Iand))); FBasic (BSet 2); FBlock true [] []; FBasic (BGet 1); FBasic (BConst (VI32 65535%Z)); FBasic (BOp (SNum2 (B_int W32 Iand))); FBasic (BGet 2); FBasic (BOp (SNum2 (B_irel W32 Ige_u))); FBrIf 2; FBasic (BConst (VI32 1%Z)); FBasic (BSet 12); FBasic (BGet 1); FBasic (BConst (VI32 1%Z)); FBasic (BOp (SNum2 (B_int W32 Iadd))); FBasic (BSet 1); FBasic (BGet 10); FBasic (BConst (VI32 48%Z)); FBasic (BGet 9); FBasic (BOp (SLoad LI32 16%Z)); FCallInd 2 0; FBasic (BOp (SNum1 (U_eqz W32))); FBrIf 0; FBr 4; FEnd; FEnd; FBasic (BConst (VI32 1%Z)); FBasic (BSet 12); FBasic (BGet 10); FBasic (BGet 9); FBasic (BGet 8); FBasic (BGet 2); FBasic (BGet 3); FCall 181; FBrIf 2; FBasic (BGet 10); FBasic (BGet 4); FBasic (BGet 5); FBasic (BGet 9); FBasic (BOp (SLoad LI32 12%Z)); FCallInd 5 0; FBrIf 2; FBasic (BConst (VI32 0%Z)); FBasic (BSet 1); FBasic (BGet 13); FBasic (BGet 11); FBasic (BOp (SNum2 (B_int W32 Isub))); FBasic (BConst (VI32 65535%Z)); FBasic (BOp (SNum2 (B_int W32 Iand))); FBasic (BSet 0); FBlock true [] []; FBasic (BGet 1); FBasic (BConst (VI32 65535%Z)); FBasic (BOp (SNum2 (B_int W32 Iand))); FBasic (BTee 2); FBasic (BGet 0); FBasic (BOp (SNum2 (B_irel W32 Ilt_u))); FBasic (BSet 12); FBasic (BGet 2); FBasic (BGet 0); FBasic (BOp (SNum2 (B_irel W32 Ige_u))); FBrIf 3; FBasic (BGet 1); FBasic (BConst (VI32 1%Z)); FBasic (BOp (SNum2 (B_int W32 Iadd))); FBasic (BSet 1); FBasic (BGet 10); FBasic (BGet 6); FBasic (BGet 9); FBasic (BOp (SLoad LI32 16%Z)); FCallInd 2 0; FBasic (BOp (SNum1 (U_eqz W32))); FBrIf 0; FBr 3; FEnd; FEnd; FBasic (BConst (VI32 1%Z)); FBasic (BSet 12); FBasic (BGet 10); FBasic (BGet 4); FBasic (BGet 5); FBasic (BGet 9); FBasic (BOp (SLoad LI32 12%Z)); FCallInd 5 0; FBrIf 1; FBasic (BGet 0); FBasic (BGet 14); FBasic (BOp (SStore SI64 8%Z)); FBasic (BConst (VI32 0%Z)); FReturn; FEnd; FBasic (BConst (VI32 1%Z)); FBasic (BSet 12); FBasic (BGet 0); FBasic (BOp (SLoad LI32 0%Z)); FBasic (BTee 1); FBasic (BGet 0); FBasic (BOp (SLoad LI32 4%Z)); FBasic (BTee 10); FBasic (BGet 8); FBasic (BGet 2); FBasic (BGet 3); FCall 181; FBrIf 0; FBasic (BGet 1); FBasic (BGet 4); FBasic (BGet 5); FBasic (BGet 10); FBasic (BOp (SLoad LI32 12%Z)); FCallInd 5 0; FBasic (BSet 12); FEnd; FBasic (BGet 12); FEnd]; b_bad := false |};
    PCode {| b_locals := [TI32; TI32]; b_badlocals := false; b_ops := [FBasic (BOp (SGlobalGet TI32 0)); FBasic (BConst (VI32 32%Z)); FBasic (BOp (SNum2 (B_int W32 Isub))); FBasic (BTee 3); FBasic (BOp (SGlobalSet TI32 0)); FBlock false [] []; FBlock false [] []; FBlock false [] []; FBlock false [] []; FBlock false [] []; FBlock false [] []; FBlock false [] []; FBlock false [] []; FBlock false [] []; FBlock false [] []; FBlock false [] []; FBlock false [] []; FBasic (BGet 1); FBrTable [6; 1; 1; 1; 1; 1; 1; 1; 1; 2; 4; 1; 1; 3; 1; 1; 1; 1; 1; 1; 1; 1; 1; 1; 1; 1; 1; 1; 1; 1; 1; 1; 1; 1; 8; 1; 1; 1; 1; 7] 0; FEnd; FBasic (BGet 1); FBasic (BConst (VI32 92%Z)); FBasic (BOp (SNum2 (B_irel W32 Ieq))); FBrIf 4; FEnd; FBasic (BGet 2); FBasic (BConst (VI32 1%Z)); FBasic (BOp (SNum2 (B_int W32 Iand))); FBasic (BOp (SNum1 (U_eqz W32))); FBrIf 7; FBasic (BGet 1); FBasic (BConst (VI32 767%Z)); FBasic (BOp (SNum2 (B_irel W32 Ile_u))); FBrIf 7; FBasic (BGet 1); FCall 162; FBasic (BOp (SNum1 (U_eqz W32))); FBrIf 7; FBasic (BGet 3); FBasic (BConst (VI32 0%Z)); FBasic (BOp (SStore SI32_8 10%Z)); FBasic (BGet 3); FBasic (BConst (VI32 0%Z)); FBasic (BOp (SStore SI32_16 8%Z)); FBasic (BGet 3); FBasic (BGet 1); FBasic (BConst (VI32 20%Z)); FBasic (BOp (SNum2 (B_int W32 Ishr_u))); FBasic (BConst (VI32 1054453%Z)); FBasic (BOp (SNum2 (B_int W32 Iadd))); FBasic (BOp (SLoad LI32_8u 0%Z)); FBasic (BOp (SStore SI32_8 11%Z)); FBasic (BGet 3); FBasic (BGet 1); FBasic (BConst (VI32 4%Z)); FBasic (BOp (SNum2 (B_int W32 Ishr_u))); FBasic (BConst (VI32 15%Z)); FBasic (BOp (SNum2 (B_int W32 Iand))); FBasic (BConst (VI32 1054453%Z)); FBasic (BOp (SNum2 (B_int W32 Iadd))); FBasic (BOp (SLoad LI32_8u 0%Z)); FBasic (BOp (SStore SI32_8 15%Z)); FBasic (BGet 3); FBasic (BGet 1); FBasic (BConst (VI32 8%Z)); FBasic (BOp (SNum2 (B_int W32 Ishr_u))); FBasic (BConst (VI32 15%Z)); FBasic (BOp (SNum2 (B_int W32 Iand))); FBasic (BConst (VI32 1054453%Z)); FBasic (BOp (SNum2 (B_int W32 Iadd))); FBasic (BOp (SLoad LI32_8u 0%Z)); FBasic (BOp (SStore SI32_8 14%Z)); FBasic (BGet 3); FBasic (BGet 1); FBasic (BConst (VI32 12%Z)); FBasic (BOp (SNum2 (B_int W32 Ishr_u))); FBasic (BConst (VI32 15%Z)); FBasic (BOp (SNum2 (B_int W32 Iand))); FBasic (BConst (VI32 1054453%Z)); FBasic (BOp (SNum2 (B_int W32 Iadd))); FBasic (BOp (SLoad LI32_8u 0%Z)); FBasic (BOp (SStore SI32_8 13%Z)); FBasic (BGet 3); FBasic (BGet 1); FBasic (BConst (VI32 16%Z)); FBasic (BOp (SNum2 (B_int W32 Ishr_u))); FBasic (BConst (VI32 15%Z)); FBasic (BOp (SNum2 (B_int W32 Iand))); FBasic (BConst (VI32 1054453%Z)); FBasic (BOp (SNum2 (B_int W32 Iadd))); FBasic (BOp (SLoad LI32_8u 0%Z)); FBasic (BOp (SStore SI32_8 12%Z)); FBasic (BGet 3); FBasic (BConst (VI32 8%Z)); FBasic (BOp (SNum2 (B_int W32 Iadd))); FBasic (BGet 1); FBasic (BConst (VI32 1%Z)); FBasic (BOp (SNum2 (B_int W32 Ior))); FBasic (BOp (SNum1 (U_int W32 Iclz))); FBasic (BConst (VI32 2%Z)); FBasic (BOp (SNum2 (B_int W32 Ishr_u))); FBasic (BTee 2); FBasic (BOp (SNum2 (B_int W32 Iadd))); FBasic (BTee 4); FBasic (BConst (VI32 123%Z)); FBasic (BOp (SStore SI32_8 0%Z)); FBasic (BGet 4); FBasic (BConst (VI32 (-1)%Z)); FBasic (BOp (SNum2 (B_int W32 Iadd))); FBasic (BConst (VI32 117%Z)); FBasic (BOp (SStore SI32_8 0%Z)); FBasic (BGet 3); FBasic (BConst (VI32 8%Z)); FBasic (BOp (SNum2 (B_int W32 Iadd))); FBasic (BGet 2); FBasic (BConst (VI32 (-2)%Z)); FBasic (BOp (SNum2 (B_int W32 Iadd))); FBasic (BTee 2); FBasic (BOp (SNum2 (B_int W32 Iadd))); FBasic (BConst (VI32 92%Z)); FBasic (BOp (SStore SI32_8 0%Z)); FBasic (BGet 3); FBasic (BConst (VI32 8%Z)); FBasic (BOp (SNum2 (B_int W32 Iadd))); FBasic (BConst (VI32 8%Z)); FBasic (BOp (SNum2 (B_int W32 Iadd))); FBasic (BTee 4); FBasic (BGet 1); FBasic (BConst (VI32 15%Z)); FBasic (BOp (SNum2 (B_int W32 Iand))); FBasic (BConst (VI32 1054453%Z)); FBasic (BOp (SNum2 (B_int W32 Iadd))); FBasic (BOp (SLoad LI32_8u 0%Z)); FBasic (BOp (SStore SI32_8 0%Z)); FBasic (BGet 0); FBasic (BConst (VI32 10%Z)); FBasic (BOp (SStore SI32_8 11%Z)); FBasic (BGet 0); FBasic (BGet 2); FBasic (BOp (SStore SI32_8 10%Z)); FBasic (BGet 0); FBasic (BGet 3); FBasic (BOp (SLoad LI64 8%Z)); FBasic (BOp (SStore SI64 0%Z)); FBasic (BGet 3); FBasic (BConst (VI32 125%Z)); FBasic (BOp (SStore SI32_8 17%Z)); FBasic (BGet 0); FBasic (BConst (VI32 8%Z)); FBasic (BOp (SNum2 (B_int W32 Iadd))); FBasic (BGet 4); FBasic (BOp (SLoad LI32_16u 0%Z)); FBasic (BOp (SStore SI32_16 0%Z)); FBr 9; FEnd; FBasic (BGet 0); FBasic (BConst (VI32 512%Z)); FBasic (BOp (SStore SI32_16 10%Z)); FBasic (BGet 0); FBasic (BConst (VI64 0%Z)); FBasic (BOp (SStore SI64 2%Z)); FBasic (BGet 0); FBasic (BConst (VI32 29788%Z)); FBasic (BOp (SStore SI32_16 0%Z)); FBr 8; FEnd; FBasic (BGet 0); FBasic (BConst (VI32 512%Z)); FBasic (BOp (SStore SI32_16 10%Z)); FBasic (BGet 0); FBasic (BConst (VI64 0%Z)); FBasic (BOp (SStore SI64 2%Z)); FBasic (BGet 0); FBasic (BConst (VI32 29276%Z)); FBasic (BOp (SStore SI32_16 0%Z)); FBr 7; FEnd; FBasic (BGet 0); FBasic (BConst (VI32 512%Z)); FBasic (BOp (SStore SI32_16 10%Z)); FBasic (BGet 0); FBasic (BConst (VI64 0%Z)); FBasic (BOp (SStore SI64 2%Z)); FBasic (BGet 0); FBasic (BConst (VI32 28252%Z)); FBasic (BOp (SStore SI32_16 0%Z)); FBr 6; FEnd; FBasic (BGet 0); FBasic (BConst (VI32 512%Z)); FBasic (BOp (SStore SI32_16 10%Z)); FBasic (BGet 0); FBasic (BConst (VI64 0%Z)); FBasic (BOp (SStore SI64 2%Z)); FBasic (BGet 0); FBasic (BConst (VI32 23644%Z)); FBasic (BOp (SStore SI32_16 0%Z)); FBr 5; FEnd; FBasic (BGet 0); FBasic (BConst (VI32 512%Z)); FBasic (BOp (SStore SI32_16 10%Z)); FBasic (BGet 0); FBasic (BConst (VI64 0%Z)); FBasic (BOp (SStore SI64 2%Z)); FBasic (BGet 0); FBasic (BConst (VI32 12380%Z)); FBasic (BOp (SStore SI32_16 0%Z)); FBr 4; FEnd; FBasic (BGet 2); FBasic (BConst (VI32 256%Z)); FBasic (BOp (SNum2 (B_int W32 Iand))); FBasic (BOp (SNum1 (U_eqz W32))); FBrIf 1; FBasic (BGet 0); FBasic (BConst (VI32 512%Z)); FBasic (BOp (SStore SI32_16 10%Z)); FBasic (BGet 0); FBasic (BConst (VI64 0%Z)); FBasic (BOp (SStore SI64 2%Z)); FBasic (BGet 0); FBasic (BConst (VI32 10076%Z)); FBasic (BOp (SStore SI32_16 0%Z)); FBr 3; FEnd; FBasic (BGet 2); FBasic (BConst (VI32 16777215%Z)); FBasic (BOp (SNum2 (B_int W32 Iand))); FBasic (BConst (VI32 65536%Z)); FBasic (BOp (SNum2 (B_irel W32 Ige_u))); FBrIf 1; FEnd; FBlock false [] []; FBasic (BGet 1); FCall 163; FBrIf 0; FBasic (BGet 3); FBasic (BConst (VI32 0%Z)); FBasic (BOp (SStore SI32_8 22%Z)); FBasic (BGet 3); FBasic (BConst (VI32 0%Z)); FBasic (BOp (SStore SI32_16 20%Z)); FBasic (BGet 3); FBasic (BGet 1); FBasic (BConst (VI32 20%Z)); FBasic (BOp (SNum2 (B_int W32 Ishr_u))); FBasic (BConst (VI32 1054453%Z)); FBasic (BOp (SNum2 (B_int W32 Iadd))); FBasic (BOp (SLoad LI32_8u 0%Z)); FBasic (BOp (SStore SI32_8 23%Z)); FBasic (BGet 3); FBasic (BGet 1); FBasic (BConst (VI32 4%Z)); FBasic (BOp (SNum2 (B_int W32 Ishr_u))); FBasic (BConst (VI32 15%Z)); FBasic (BOp (SNum2 (B_int W32 Iand))); FBasic (BConst (VI32 1054453%Z)); FBasic (BOp (SNum2 (B_int W32 Iadd))); FBasic (BOp (SLoad LI32_8u 0%Z)); FBasic (BOp (SStore SI32_8 27%Z)); FBasic (BGet 3); FBasic (BGet 1); FBasic (BConst (VI32 8%Z)); FBasic (BOp (SNum2 (B_int W32 Ishr_u))); FBasic (BConst (VI32 15%Z)); FBasic (BOp (SNum2 (B_int W32 Iand))); FBasic (BConst (VI32 1054453%Z)); FBasic (BOp (SNum2 (B_int W32 Iadd))); FBasic (BOp (SLoad LI32_8u 0%Z)); FBasic (BOp (SStore SI32_8 26%Z)); FBasic (BGet 3); FBasic (BGet 1); FBasic (BConst (VI32 12%Z)); FBasic (BOp (SNum2 (B_int W32 Ishr_u))); FBasic (BConst (VI32 15%Z)); FBasic (BOp (SNum2 (B_int W32 Iand))); FBasic (BConst (VI32 1054453%Z)); FBasic (BOp (SNum2 (B_int W32 Iadd))); FBasic (BOp (SLoad LI32_8u 0%Z)); FBasic (BOp (SStore SI32_8 25%Z)); FBasic (BGet 3); FBasic (BGet 1); FBasic (BConst (VI32 16%Z)); FBasic (BOp (SNum2 (B_int W32 Ishr_u))); FBasic (BConst (VI32 15%Z)); FBasic (BOp (SNum2 (B_int W32 Iand))); FBasic (BConst (VI32 1054453%Z)); FBasic (BOp (SNum2 (B_int W32 Iadd))); FBasic (BOp (SLoad LI32_8u 0%Z)); FBasic (BOp (SStore SI32_8 24%Z)); FBasic (BGet 3); FBasic (BConst (VI32 20%Z)); FBasic (BOp (SNum2 (B_int W32 Iadd))); FBasic (BGet 1); FBasic (BConst (VI32 1%Z)); FBasic (BOp (SNum2 (B_int W32 Ior))); FBasic (BOp (SNum1 (U_int W32 Iclz))); FBasic (BConst (VI32 2%Z)); FBasic (BOp (SNum2 (B_int W32 Ishr_u))); FBasic (BTee 2); FBasic (BOp (SNum2 (B_int W32 Iadd))); FBasic (BTee 4); FBasic (BConst (VI32 123%Z)); FBasic (BOp (SStore SI32_8 0%Z)); FBasic (BGet 4); FBasic (BConst (VI32 (-1)%Z)); FBasic (BOp (SNum2 (B_int W32 Iadd))); FBasic (BConst (VI32 117%Z)); FBasic (BOp (SStore SI32_8 0%Z)); FBasic (BGet 3); FBasic (BConst (VI32 20%Z)); FBasic (BOp (SNum2 (B_int W32 Iadd))); FBasic (BGet 2); FBasic (BConst (VI32 (-2)%Z)); FBasic (BOp (SNum2 (B_int W32 Iadd))); FBasic (BTee 2); FBasic (BOp (SNum2 (B_int W32 Iadd))); FBasic (BConst (VI32 92%Z)); FBasic (BOp (SStore SI32_8 0%Z)); FBasic (BGet 3); FBasic (BConst (VI32 20%Z)); FBasic (BOp (SNum2 (B_int W32 Iadd))); FBasic (BConst (VI32 8%Z)); FBasic (BOp (SNum2 (B_int W32 Iadd))); FBasic (BTee 4); FBasic (BGet 1); FBasic (BConst (VI32 15%Z)); FBasic (BOp (SNum2 (B_int W32 Iand))); FBasic (BConst (VI32 1054453%Z)); FBasic (BOp (SNum2 (B_int W32 Iadd))); FBasic (BOp (SLoad LI32_8u 0%Z)); FBasic (BOp (SStore SI32_8 0%Z)); FBasic (BGet 0); FBasic (BConst (VI32 10%Z)); FBasic (BOp (SStore SI32_8 11%Z)); FBasic (BGet 0); FBasic (BGet 2); FBasic (BOp (SStore SI32_8 10%Z)); FBasic (BGet 0); FBasic (BGet 3); FBasic (BOp (SLoad LI64 20%Z)); FBasic (BOp (SStore SI64 0%Z)); FBasic (BGet 3); FBasic (BConst (VI32 125%Z)); FBasic (BOp (SStore SI32_8 29%Z)); FBasic (BGet 0); FBasic (BConst (VI32 8%Z)); FBasic (BOp (SNum2 (B_int W32 Iadd))); FBasic (BGet 4); FBasic (BOp (SLoad LI32_16u 0%Z)); FBasic (BOp (SStore SI32_16 0%Z)); FBr 2; FEnd; FBasic (BGet 0); FBasic (BGet 1); FBasic (BOp (SStore SI32 4%Z)); FBasic (BGet 0); FBasic (BConst (VI32 128%Z)); FBasic (BOp (SStore SI32_8 0%Z)); FBr 1; FEnd; FBasic (BGet 0); FBasic (BConst (VI32 512%Z)); FBasic (BOp (SStore SI32_16 10%Z)); FBasic (BGet 0); FBasic (BConst (VI64 0%Z)); FBasic (BOp (SStore SI64 2%Z)); FBasic (BGet 0); FBasic (BConst (VI32 8796%Z)); FBasic (BOp (SStore SI32_16 0%Z)); FEnd; FBasic (BGet 3); FBasic (BConst (VI32 32%Z)); FBasic (BOp (SNum2 (B_int W32 Iadd))); FBasic (BOp (SGlobalSet TI32 0)); FEnd]; b_bad := false |};
    PCode {| b_locals := [TI32; TI32; TI32; TI32; TI32; TI32; TI32; TI32]; b_badlocals := false; b_ops := [FBlock false [] []; FBlock false [] []; FBasic (BGet 1); FBasic (BGet 0); FBasic (BConst (VI32 3%Z)); FBasic (BOp (SNum2 (B_int W32 Iadd))); FBasic (BConst (VI32 (-4)%Z)); FBasic (BOp (SNum2 (B_int W32 Iand))); FBasic (BTee 2); FBasic (BGet 0); FBasic (BOp (SNum2 (B_int W32 Isub))); FBasic (BTee 3); FBasic (BOp (SNum2 (B_irel W32 Ilt_u))); FBrIf 0; FBasic (BGet 1); FBasic (BGet 3); FBasic (BOp (SNum2 (B_int W32 Isub))); FBasic (BTee 4); FBasic (BConst (VI32 4%Z)); FBasic (BOp (SNum2 (B_irel W32 Ilt_u))); FBrIf 0; FBasic (BGet 4); FBasic (BConst (VI32 3%Z)); FBasic (BOp (SNum2 (B_int W32 Iand))); FBasic (BSet 5); FBasic (BConst (VI32 0%Z)); FBasic (BSet 6); FBasic (BConst (VI32 0%Z)); FBasic (BSet 1); FBlock false [] []; FBasic (BGet 2); FBasic (BGet 0); FBasic (BOp (SNum2 (B_irel W32 Ieq))); FBasic (BTee 7); FBrIf 0; FBasic (BConst (VI32 0%Z)); FBasic (BSet 1); FBlock false [] []; FBlock false [] []; FBasic (BGet 0); FBasic (BGet 2); FBasic (BOp (SNum2 (B_int W32 Isub))); FBasic (BTee 8); FBasic (BConst (VI32 (-4)%Z)); FBasic (BOp (SNum2 (B_irel W32 Ile_u))); FBrIf 0; FBasic (BConst (VI32 0%Z)); FBasic (BSet 9); FBr 1; FEnd; FBasic (BConst (VI32 0%Z)); FBasic (BSet 9); FBlock true [] []; FBasic (BGet 1); FBasic (BGet 0); FBasic (BGet 9); FBasic (BOp (SNum2 (B_int W32 Iadd))); FBasic (BTee 2); FBasic (BOp (SLoad LI32_8s 0%Z)); FBasic (BConst (VI32 (-65)%Z)); FBasic (BOp (SNum2 (B_irel W32 Igt_s))); FBasic (BOp (SNum2 (B_int W32 Iadd))); FBasic (BGet 2); FBasic (BConst (VI32 1%Z)); FBasic (BOp (SNum2 (B_int W32 Iadd))); FBasic (BOp (SLoad LI32_8s 0%Z)); FBasic (BConst (VI32 (-65)%Z)); FBasic (BOp (SNum2 (B_irel W32 Igt_s))); FBasic (BOp (SNum2 (B_int W32 Iadd))); FBasic (BGet 2); FBasic (BConst (VI32 2%Z)); FBasic (BOp (SNum2 (B_int W32 Iadd))); FBasic (BOp (SLoad LI32_8s 0%Z)); FBasic (BConst (VI32 (-65)%Z)); FBasic (BOp (SNum2 (B_irel W32 Igt_s))); FBasic (BOp (SNum2 (B_int W32 Iadd))); FBasic (BGet 2); FBasic (BConst (VI32 3%Z)); FBasic (BOp (SNum2 (B_int W32 Iadd))); FBasic (BOp (SLoad LI32_8s 0%Z)); FBasic (BConst (VI32 (-65)%Z)); FBasic (BOp (SNum2 (B_irel W32 Igt_s))); FBasic (BOp (SNum2 (B_int W32 Iadd))); FBasic (BSet 1); FBasic (BGet 9); FBasic (BConst (VI32 4%Z)); FBasic (BOp (SNum2 (B_int W32 Iadd))); FBasic (BTee 9); FBrIf 0; FEnd; FEnd; FBasic (BGet 7); FBrIf 0; FBasic (BGet 0); FBasic (BGet 9); FBasic (BOp (SNum2 (B_int W32 Iadd))); FBasic (BSet 2); FBlock true [] []; FBasic (BGet 1); FBasic (BGet 2); FBasic (BOp (SLoad LI32_8s 0%Z)); FBasic (BConst (VI32 (-65)%Z)); FBasic (BOp (SNum2 (B_irel W32 Igt_s))); FBasic (BOp (SNum2 (B_int W32 Iadd))); FBasic (BSet 1); FBasic (BGet 2); FBasic (BConst (VI32 1%Z)); FBasic (BOp (SNum2 (B_int W32 Iadd))); FBasic (BSet 2); FBasic (BGet 8); FBasic (BConst (VI32 1%Z)); FBasic (BOp (SNum2 (B_int W32 Iadd))); FBasic (BTee 8); FBrIf 0; FEnd; FEnd; FBasic (BGet 0); FBasic (BGet 3); FBasic (BOp (SNum2 (B_int W32 Iadd))); FBasic (BSet 0); FBlock false [] []; FBasic (BGet 5); FBasic (BOp (SNum1 (U_eqz W32))); FBrIf 0; FBasic (BGet 0); FBasic (BGet 4); FBasic (BConst (VI32 (-4)%Z)); FBasic (BOp (SNum2 (B_int W32 Iand))); FBasic (BOp (SNum2 (B_int W32 Iadd))); FBasic (BTee 2); FBasic (BOp (SLoad LI32_8s 0%Z)); FBasic (BConst (VI32 (-65)%Z)); FBasic (BOp (SNum2 (B_irel W32 Igt_s))); FBasic (BSet 6); FBasic (BGet 5); FBasic (BConst (VI32 1%Z)); FBasic (BOp (SNum2 (B_irel W32 Ieq))); FBrIf 0; FBasic (BGet 6); FBasic (BGet 2); FBasic (BOp (SLoad LI32_8s 1%Z)); FBasic (BConst (VI32 (-65)%Z)); FBasic (BOp (SNum2 (B_irel W32 Igt_s))); FBasic (BOp (SNum2 (B_int W32 Iadd))); FBasic (BSet 6); FBasic (BGet 5); FBasic (BConst (VI32 2%Z)); FBasic (BOp (SNum2 (B_irel W32 Ieq))); FBrIf 0; FBasic (BGet 6); FBasic (BGet 2); FBasic (BOp (SLoad LI32_8s 2%Z)); FBasic (BConst (VI32 (-65)%Z)); FBasic (BOp (SNum2 (B_irel W32 Igt_s))); FBasic (BOp (SNum2 (B_int W32 Iadd))); FBasic (BSet 6); FEnd; FBasic (BGet 4); FBasic (BConst (VI32 2%Z)); FBasic (BOp (SNum2 (B_int W32 Ishr_u))); FBasic (BSet 8); FBasic (BGet 6); FBasic (BGet 1); FBasic (BOp (SNum2 (B_int W32 Iadd))); FBasic (BSet 3); FBlock true [] []; FBasic (BGet 0); FBasic (BSet 4); FBasic (BGet 8); FBasic (BOp (SNum1 (U_eqz W32))); FBrIf 2; FBasic (BGet 8); FBasic (BConst (VI32 192%Z)); FBasic (BGet 8); FBasic (BConst (VI32 192%Z)); FBasic (BOp (SNum2 (B_irel W32 Ilt_u))); FBasic (BSelect None); FBasic (BTee 6); FBasic (BConst (VI32 3%Z)); FBasic (BOp (SNum2 (B_int W32 Iand))); FBasic (BSet 7); FBasic (BGet 6); FBasic (BConst (VI32 2%Z)); FBasic (BOp (SNum2 (B_int W32 Ishl))); FBasic (BSet 5); FBasic (BConst (VI32 0%Z)); FBasic (BSet 2); FBlock false [] []; FBasic (BGet 8); FBasic (BConst (VI32 4%Z)); FBasic (BOp (SNum2 (B_irel W32 Ilt_u))); FBrIf 0; FBasic (BGet 4); FBasic (BGet 5); FBasic (BConst (VI32 1008%Z)); FBasic (BOp (SNum2 (B_int W32 Iand))); FBasic (BOp (SNum2 (B_int W32 Iadd))); FBasic (BSet 9); FBasic (BConst (VI32 0%Z)); FBasic (BSet 2); FBasic (BGet 4); FBasic (BSet 1); FBlock true [] []; FBasic (BGet 1); FBasic (BConst (VI32 12%Z)); FBasic (BOp (SNum2 (B_int W32 Iadd))); FBasic (BOp (SLoad LI32 0%Z)); FBasic (BTee 0); FBasic (BConst (VI32 (-1)%Z)); FBasic (BOp (SNum2 (B_int W32 Ixor))); FBasic (BConst (VI32 7%Z)); FBasic (BOp (SNum2 (B_int W32 Ishr_u))); FBasic (BGet 0); FBasic (BConst (VI32 6%Z)); FBasic (BOp (SNum2 (B_int W32 Ishr_u))); FBasic (BOp (SNum2 (B_int W32 Ior))); FBasic (BConst (VI32 16843009%Z)); FBasic (BOp (SNum2 (B_int W32 Iand))); FBasic (BGet 1); FBasic (BConst (VI32 8%Z)); FBasic (BOp (SNum2 (B_int W32 Iadd))); FBasic (BOp (SLoad LI32 0%Z)); FBasic (BTee 0); FBasic (BConst (VI32 (-1)%Z)); FBasic (BOp (SNum2 (B_int W32 Ixor))); FBasic (BConst (VI32 7%Z)); FBasic (BOp (SNum2 (B_int W32 Ishr_u))); FBasic (BGet 0); FBasic (BConst (VI32 6%Z)); FBasic (BOp (SNum2 (B_int W32 Ishr_u))); FBasic (BOp (SNum2 (B_int W32 Ior))); FBasic (BConst (VI32 16843009%Z)); FBasic (BOp (SNum2 (B_int W32 Iand))); FBasic (BGet 1); FBasic (BConst (VI32 4%Z)); FBasic (BOp (SNum2 (B_int W32 Iadd))); FBasic (BOp (SLoad LI32 0%Z)); FBasic (BTee 0); FBasic (BConst (VI32 (-1)%Z)); FBasic (BOp (SNum2 (B_int W32 Ixor))); FBasic (BConst (VI32 7%Z)); FBasic (BOp (SNum2 (B_int W32 Ishr_u))); FBasic (BGet 0); FBasic (BConst (VI32 6%Z)); FBasic (BOp (SNum2 (B_int W32 Ishr_u))); FBasic (BOp (SNum2 (B_int W32 Ior))); FBasic (BConst (VI32 16843009%Z)); FBasic (BOp (SNum2 (B_int W32 Iand))); FBasic (BGet 1); FBasic (BOp (SLoad LI32 0%Z)); FBasic (BTee 0); FBasic (BConst (VI32 (-1)%Z)); FBasic (BOp (SNum2 (B_int W32 Ixor))); FBasic (BConst (VI32 7%Z)); FBasic (BOp (SNum2 (B_int W32 Ishr_u))); FBasic (BGet 0); FBasic (BConst (VI32 6%Z)); FBasic (BOp (SNum2 (B_int W32 Ishr_u))); FBasic (BOp (SNum2 (B_int W32 Ior))); FBasic (BConst (VI32 16843009%Z)); FBasic (BOp (SNum2 (B_int W32 Iand))); FBasic (BGet 2); FBasic (BOp (SNum2 (B_int W32 Iadd))); FBasic (BOp (SNum2 (B_int W32 Iadd))); FBasic (BOp (SNum2 (B_int W32 Iadd))); FBasic (BOp (SNum2 (B_int W32 Iadd))); FBasic (BSet 2); FBasic (BGet 1); FBasic (BConst (VI32 16%Z)); FBasic (BOp (SNum2 (B_int W32 Iadd))); FBasic (BTee 1); FBasic (BGet 9); FBasic (BOp (SNum2 (B_irel W32 Ine))); FBrIf 0; FEnd; FEnd; FBasic (BGet 8); FBasic (BGet 6); FBasic (BOp (SNum2 (B_int W32 Isub))); FBasic (BSet 8); FBasic (BGet 4); FBasic (BGet 5); FBasic (BOp (SNum2 (B_int W32 Iadd))); FBasic (BSet 0); FBasic (BGet 2); FBasic (BConst (VI32 8%Z)); FBasic (BOp (SNum2 (B_int W32 Ishr_u))); FBasic (BConst (VI32 16711935%Z)); FBasic (BOp (SNum2 (B_int W32 Iand))); FBasic (BGet 2); FBasic (BConst (VI32 16711935%Z)); FBasic (BOp (SNum2 (B_int W32 Iand))); FBasic (BOp (SNum2 (B_int W32 Iadd))); FBasic (BConst (VI32 65537%Z)); FBasic (BOp (SNum2 (B_int W32 Imul))); FBasic (BConst (VI32 16%Z)); FBasic (BOp (SNum2 (B_int W32 Ishr_u))); FBasic (BGet 3); FBasic (BOp (SNum2 (B_int W32 Iadd))); FBasic (BSet 3); FBasic (BGet 7); FBasic (BOp (SNum1 (U_eqz W32))); FBrIf 0; FEnd; FBasic (BGet 4); FBasic (BGet 6); FBasic (BConst (VI32 252%Z)); FBasic (BOp (SNum2 (B_int W32 Iand))); FBasic (BConst (VI32 2%Z)); FBasic (BOp (SNum2 (B_int W32 Ishl))); FBasic (BOp (SNum2 (B_int W32 Iadd))); FBasic (BTee 2); FBasic (BOp (SLoad LI32 0%Z)); FBasic (BTee 1); FBasic (BConst (VI32 (-1)%Z)); FBasic (BOp (SNum2 (B_int W32 Ixor))); FBasic (BConst (VI32 7%Z)); FBasic (BOp (SNum2 (B_int W32 Ishr_u))); FBasic (BGet 1); FBasic (BConst (VI32 6%Z)); FBasic (BOp (SNum2 (B_int W32 Ishr_u))); FBasic (BOp (SNum2 (B_int W32 Ior))); FBasic (BConst (VI32 16843009%Z)); FBasic (BOp (SNum2 (B_int W32 Iand))); FBasic (BSet 1); FBlock false [] []; FBasic (BGet 7); FBasic (BConst (VI32 1%Z)); FBasic (BOp (SNum2 (B_irel W32 Ieq))); FBrIf 0; FBasic (BGet 2); FBasic (BOp (SLoad LI32 4%Z)); FBasic (BTee 0); FBasic (BConst (VI32 (-1)%Z)); FBasic (BOp (SNum2 (B_int W32 Ixor))); FBasic (BConst (VI32 7%Z)); FBasic (BOp (SNum2 (B_int W32 Ishr_u))); FBasic (BGet 0); FBasic (BConst (VI32 6%Z)); FBasic (BOp (SNum2 (B_int W32 Ishr_u))); FBasic (BOp (SNum2 (B_int W32 Ior))); FBasic (BConst (VI32 16843009%Z)); FBasic (BOp (SNum2 (B_int W32 Iand))); FBasic (BGet 1); FBasic (BOp (SNum2 (B_int W32 Iadd))); FBasic (BSet 1); FBasic (BGet 7); FBasic (BConst (VI32 2%Z)); FBasic (BOp (SNum2 (B_irel W32 Ieq))); FBrIf 0; FBasic (BGet 2); FBasic (BOp (SLoad LI32 8%Z)); FBasic (BTee 2); FBasic (BConst (VI32 (-1)%Z)); FBasic (BOp (SNum2 (B_int W32 Ixor))); FBasic (BConst (VI32 7%Z)); FBasic (BOp (SNum2 (B_int W32 Ishr_u))); FBasic (BGet 2); FBasic (BConst (VI32 6%Z)); FBasic (BOp (SNum2 (B_int W32 Ishr_u))); FBasic (BOp (SNum2 (B_int W32 Ior))); FBasic (BConst (VI32 16843009%Z)); FBasic (BOp (SNum2 (B_int W32 Iand))); FBasic (BGet 1); FBasic (BOp (SNum2 (B_int W32 Iadd))); FBasic (BSet 1); FEnd; FBasic (BGet 1); FBasic (BConst (VI32 8%Z)); FBasic (BOp (SNum2 (B_int W32 Ishr_u))); FBasic (BConst (VI32 459007%Z)); FBasic (BOp (SNum2 (B_int W32 Iand))); FBasic (BGet 1); FBasic (BConst (VI32 16711935%Z)); FBasic (BOp (SNum2 (B_int W32 Iand))); FBasic (BOp (SNum2 (B_int W32 Iadd))); FBasic (BConst (VI32 65537%Z)); FBasic (BOp (SNum2 (B_int W32 Imul))); FBasic (BConst (VI32 16%Z)); FBasic (BOp (SNum2 (B_int W32 Ishr_u))); FBasic (BGet 3); FBasic (BOp (SNum2 (B_int W32 Iadd))); FReturn; FEnd; FBlock false [] []; FBasic (BGet 1); FBrIf 0; FBasic (BConst (VI32 0%Z)); FReturn; FEnd; FBasic (BGet 1); FBasic (BConst (VI32 3%Z)); FBasic (BOp (SNum2 (B_int W32 Iand))); FBasic (BSet 9); FBlock false [] []; FBlock false [] []; FBasic (BGet 1); FBasic (BConst (VI32 4%Z)); FBasic (BOp (SNum2 (B_irel W32 Ige_u))); FBrIf 0; FBasic (BConst (VI32 0%Z)); FBasic (BSet 3); FBasic (BConst (VI32 0%Z)); FBasic (BSet 2); FBr 1; FEnd; FBasic (BGet 1); FBasic (BConst (VI32 (-4)%Z)); FBasic (BOp (SNum2 (B_int W32 Iand))); FBasic (BSet 8); FBasic (BConst (VI32 0%Z)); FBasic (BSet 3); FBasic (BConst (VI32 0%Z)); FBasic (BSet 2); FBlock true [] []; FBasic (BGet 3); FBasic (BGet 0); FBasic (BGet 2); FBasic (BOp (SNum2 (B_int W32 Iadd))); FBasic (BTee 1); FBasic (BOp (SLoad LI32_8s 0%Z)); FBasic (BConst (VI32 (-65)%Z)); FBasic (BOp (SNum2 (B_irel W32 Igt_s))); FBasic (BOp (SNum2 (B_int W32 Iadd))); FBasic (BGet 1); FBasic (BConst (VI32 1%Z)); FBasic (BOp (SNum2 (B_int W32 Iadd))); FBasic (BOp (SLoad LI32_8s 0%Z)); FBasic (BConst (VI32 (-65)%Z)); FBasic (BOp (SNum2 (B_irel W32 Igt_s))); FBasic (BOp (SNum2 (B_int W32 Iadd))); FBasic (BGet 1); FBasic (BConst (VI32 2%Z)); FBasic (BOp (SNum2 (B_int W32 Iadd))); FBasic (BOp (SLoad LI32_8s 0%Z)); FBasic (BConst (VI32 (-65)%Z)); FBasic (BOp (SNum2 (B_irel W32 Igt_s))); FBasic (BOp (SNum2 (B_int W32 Iadd))); FBasic (BGet 1); FBasic (BConst (VI32 3%Z)); FBasic (BOp (SNum2 (B_int W32 Iadd))); FBasic (BOp (SLoad LI32_8s 0%Z)); FBasic (BConst (VI32 (-65)%Z)); FBasic (BOp (SNum2 (B_irel W32 Igt_s))); FBasic (BOp (SNum2 (B_int W32 Iadd))); FBasic (BSet 3); FBasic (BGet 8); FBasic (BGet 2); FBasic (BConst (VI32 4%Z)); FBasic (BOp (SNum2 (B_int W32 Iadd))); FBasic (BTee 2); FBasic (BOp (SNum2 (B_irel W32 Ine))); FBrIf 0; FEnd; FEnd; FBasic (BGet 9); FBasic (BOp (SNum1 (U_eqz W32))); FBrIf 0; FBasic (BGet 0); FBasic (BGet 2); FBasic (BOp (SNum2 (B_int W32 Iadd))); FBasic (BSet 1); FBlock true [] []; FBasic (BGet 3); FBasic (BGet 1); FBasic (BOp (SLoad LI32_8s 0%Z)); FBasic (BConst (VI32 (-65)%Z)); FBasic (BOp (SNum2 (B_irel W32 Igt_s))); FBasic (BOp (SNum2 (B_int W32 Iadd))); FBasic (BSet 3); FBasic (BGet 1); FBasic (BConst (VI32 1%Z)); FBasic (BOp (SNum2 (B_int W32 Iadd))); FBasic (BSet 1); FBasic (BGet 9); FBasic (BConst (VI32 (-1)%Z)); FBasic (BOp (SNum2 (B_int W32 Iadd))); FBasic (BTee 9); FBrIf 0; FEnd; FEnd; FBasic (BGet 3); FEnd]; b_bad := false |};
    PCode {| b_locals := []; b_badlocals := false; b_ops := [FBasic (BGet 1); FBasic (BOp (SLoad LI32 0%Z)); FBasic (BConst (VI32 1054469%Z)); FBasic (BConst (VI32 14%Z)); FBasic (BGet 1); FBasic (BOp (SLoad LI32 4%Z)); FBasic (BOp (SLoad LI32 12%Z)); FCallInd 5 0; FEnd]; b_bad := false |};
    PCode {| b_locals := [TI32]; b_badlocals := false; b_ops := [FBasic (BOp (SGlobalGet TI32 0)); FBasic (BConst (VI32 48%Z)); FBasic (BOp (SNum2 (B_int W32 Isub))); FBasic (BTee 1); FBasic (BOp (SGlobalSet TI32 0)); FBasic (BGet 1); FBasic (BConst (VI32 1%Z)); FBasic (BOp (SStore SI32 12%Z)); FBasic (BGet 1); FBasic (BConst (VI32 1054504%Z)); FBasic (BOp (SStore SI32 8%Z)); FBasic (BGet 1); FBasic (BConst (VI64 1%Z)); FBasic (BOp (SStore SI64 20%Z)); FBasic (BGet 1); FBasic (BConst (VI32 54%Z)); FBasic (BOp (SCvt (C_ext Ux))); FBasic (BConst (VI64 32%Z)); FBasic (BOp (SNum2 (B_int W64 Ishl))); FBasic (BGet 1); FBasic (BConst (VI32 47%Z)); FBasic (BOp (SNum2 (B_int W32 Iadd))); FBasic (BOp (SCvt (C_ext Ux))); FBasic (BOp (SNum2 (B_int W64 Ior))); FBasic (BOp (SStore SI64 32%Z)); FBasic (BGet 1); FBasic (BGet 1); FBasic (BConst (VI32 32%Z)); FBasic (BOp (SNum2 (B_int W32 Iadd))); FBasic (BOp (SStore SI32 16%Z)); FBasic (BGet 1); FBasic (BConst (VI32 8%Z)); FBasic (BOp (SNum2 (B_int W32 Iadd))); FBasic (BGet 0); FCall 152; FUnreachable; FEnd]; b_bad := false |};
    PCode {| b_locals := [TI32; TI32; TI32]; b_badlocals := false; b_ops := [FBasic (BOp (SGlobalGet TI32 0)); FBasic (BConst (VI32 128%Z)); FBasic (BOp (SNum2 (B_int W32 Isub))); FBasic (BTee 2); FBasic (BOp (SGlobalSet TI32 0)); FBasic (BGet 0); FBasic (BOp (SLoad LI32_16u 0%Z)); FBasic (BSet 3); FBasic (BConst (VI32 0%Z)); FBasic (BSet 0); FBlock true [] []; FBasic (BGet 2); FBasic (BGet 0); FBasic (BOp (SNum2 (B_int W32 Iadd))); FBasic (BConst (VI32 127%Z)); FBasic (BOp (SNum2 (B_int W32 Iadd))); FBasic (BGet 3); FBasic (BConst (VI32 15%Z)); FBasic (BOp (SNum2 (B_int W32 Iand))); FBasic (BTee 4); FBasic (BConst (VI32 48%Z)); FBasic (BOp (SNum2 (B_int W32 Ior))); FBasic (BGet 4); FBasic (BConst (VI32 87%Z)); FBasic (BOp (SNum2 (B_int W32 Iadd))); FBasic (BGet 4); FBasic (BConst (VI32 10%Z)); FBasic (BOp (SNum2 (B_irel W32 Ilt_u))); FBasic (BSelect None); FBasic (BOp (SStore SI32_8 0%Z)); FBasic (BGet 0); FBasic (BConst (VI32 (-1)%Z)); FBasic (BOp (SNum2 (B_int W32 Iadd))); FBasic (BSet 0); FBasic (BGet 3); FBasic (BConst (VI32 65535%Z)); FBasic (BOp (SNum2 (B_int W32 Iand))); FBasic (BTee 4); FBasic (BConst (VI32 4%Z)); FBasic (BOp (SNum2 (B_int W32 Ishr_u))); FBasic (BSet 3); FBasic (BGet 4); FBasic (BConst (VI32 15%Z)); FBasic (BOp (SNum2 (B_irel W32 Igt_u))); FBrIf 0; FEnd; FBasic (BGet 1); FBasic (BConst (VI32 1%Z)); FBasic (BConst (VI32 1054805%Z)); FBasic (BConst (VI32 2%Z)); FBasic (BGet 2); FBasic (BGet 0); FBasic (BOp (SNum2 (B_int W32 Iadd))); FBasic (BConst (VI32 128%Z)); FBasic (BOp (SNum2 (B_int W32 Iadd))); FBasic (BConst (VI32 0%Z)); FBasic (BGet 0); FBasic (BOp (SNum2 (B_int W32 Isub))); FCall 156; FBasic (BSet 0); FBasic (BGet 2); FBasic (BConst (VI32 128%Z)); FBasic (BOp (SNum2 (B_int W32 Iadd))); FBasic (BOp (SGlobalSet TI32 0)); FBasic (BGet 0); FEnd]; b_bad := false |};
    PCode {| b_locals := [TI32; TI32; TI32; TI32; TI32]; b_badlocals := false; b_ops := [FBasic (BConst (VI32 0%Z)); FBasic (BSet 1); FBasic (BConst (VI32 0%Z)); FBasic (BConst (VI32 17%Z)); FBasic (BGet 0); FBasic (BConst (VI32 71727%Z)); FBasic (BOp (SNum2 (B_irel W32 Ilt_u))); FBasic (BSelect None); FBasic (BTee 2); FBasic (BGet 2); FBasic (BConst (VI32 8%Z)); FBasic (BOp (SNum2 (B_int W32 Ior))); FBasic (BTee 2); FBasic (BGet 2); FBasic (BConst (VI32 2%Z)); FBasic (BOp (SNum2 (B_int W32 Ishl))); FBasic (BConst (VI32 1057020%Z)); FBasic (BOp (SNum2 (B_int W32 Iadd))); FBasic (BOp (SLoad LI32 0%Z)); FBasic (BConst (VI32 11%Z)); FBasic (BOp (SNum2 (B_int W32 Ishl))); FBasic (BGet 0); FBasic (BConst (VI32 11%Z)); FBasic (BOp (SNum2 (B_int W32 Ishl))); FBasic (BTee 2); FBasic (BOp (SNum2 (B_irel W32 Igt_u))); FBasic (BSelect None); FBasic (BTee 3); FBasic (BGet 3); FBasic (BConst (VI32 4%Z)); FBasic (BOp (SNum2 (B_int W32 Ior))); FBasic (BTee 3); FBasic (BGet 3); FBasic (BConst (VI32 2%Z)); FBasic (BOp (SNum2 (B_int W32 Ishl))); FBasic (BConst (VI32 1057020%Z)); FBasic (BOp (SNum2 (B_int W32 Iadd))); FBasic (BOp (SLoad LI32 0%Z)); FBasic (BConst (VI32 11%Z)); FBasic (BOp (SNum2 (B_int W32 Ishl))); FBasic (BGet 2); FBasic (BOp (SNum2 (B_irel W32 Igt_u))); FBasic (BSelect None); FBasic (BTee 3); FBasic (BGet 3); FBasic (BConst (VI32 2%Z)); FBasic (BOp (SNum2 (B_int W32 Ior))); FBasic (BTee 3); FBasic (BGet 3); FBasic (BConst (VI32 2%Z)); FBasic (BOp (SNum2 (B_int W32 Ishl))); FBasic (BConst (VI32 1057020%Z)); FBasic (BOp (SNum2 (B_int W32 Iadd))); FBasic (BOp (SLoad LI32 0%Z)); FBasic (BConst (VI32 11%Z)); FBasic (BOp (SNum2 (B_int W32 Ishl))); FBasic (BGet 2); FBasic (BOp (SNum2 (B_irel W32 Igt_u))); FBasic (BSelect None); FBasic (BTee 3); FBasic (BGet 3); FBasic (BConst (VI32 1%Z)); FBasic (BOp (SNum2 (B_int W32 Iadd))); FBasic (BTee 3); FBasic (BGet 3); FBasic (BConst (VI32 2%Z)); FBasic (BOp (SNum2 (B_int W32 Ishl))); FBasic (BConst (VI32 1057020%Z)); FBasic (BOp (SNum2 (B_int W32 Iadd))); FBasic (BOp (SLoad LI32 0%Z)); FBasic (BConst (VI32 11%Z)); FBasic (BOp (SNum2 (B_int W32 Ishl))); FBasic (BGet 2); FBasic (BOp (SNum2 (B_irel W32 Igt_u))); FBasic (BSelect None); FBasic (BTee 3); FBasic (BGet 3); FBasic (BConst (VI32 1%Z)); FBasic (BOp (SNum2 (B_int W32 Iadd))); FBasic (BTee 3); FBasic (BGet 3); FBasic (BConst (VI32 2%Z)); FBasic (BOp (SNum2 (B_int W32 Ishl))); FBasic (BConst (VI32 1057020%Z)); FBasic (BOp (SNum2 (B_int W32 Iadd))); FBasic (BOp (SLoad LI32 0%Z)); FBasic (BConst (VI32 11%Z)); FBasic (BOp (SNum2 (B_int W32 Ishl))); FBasic (BGet 2); FBasic (BOp (SNum2 (B_irel W32 Igt_u))); FBasic (BSelect None); FBasic (BTee 3); FBasic (BConst (VI32 2%Z)); FBasic (BOp (SNum2 (B_int W32 Ishl))); FBasic (BConst (VI32 1057020%Z)); FBasic (BOp (SNum2 (B_int W32 Iadd))); FBasic (BOp (SLoad LI32 0%Z)); FBasic (BConst (VI32 11%Z)); FBasic (BOp (SNum2 (B_int W32 Ishl))); FBasic (BTee 4); FBasic (BGet 2); FBasic (BOp (SNum2 (B_irel W32 Ieq))); FBasic (BGet 4); FBasic (BGet 2); FBasic (BOp (SNum2 (B_irel W32 Ilt_u))); FBasic (BOp (SNum2 (B_int W32 Iadd))); FBasic (BGet 3); FBasic (BOp (SNum2 (B_int W32 Iadd))); FBasic (BTee 3); FBasic (BConst (VI32 2%Z)); FBasic (BOp (SNum2 (B_int W32 Ishl))); FBasic (BConst (VI32 1057020%Z)); FBasic (BOp (SNum2 (B_int W32 Iadd))); FBasic (BTee 5); FBasic (BOp (SLoad LI32 0%Z)); FBasic (BConst (VI32 21%Z)); FBasic (BOp (SNum2 (B_int W32 Ishr_u))); FBasic (BSet 2); FBasic (BConst (VI32 751%Z)); FBasic (BSet 4); FBlock false [] []; FBlock false [] []; FBasic (BGet 3); FBasic (BConst (VI32 32%Z)); FBasic (BOp (SNum2 (B_irel W32 Igt_u))); FBrIf 0; FBasic (BGet 5); FBasic (BOp (SLoad LI32 4%Z)); FBasic (BConst (VI32 21%Z)); FBasic (BOp (SNum2 (B_int W32 Ishr_u))); FBasic (BSet 4); FBasic (BGet 3); FBasic (BOp (SNum1 (U_eqz W32))); FBrIf 1; FEnd; FBasic (BGet 5); FBasic (BConst (VI32 (-4)%Z)); FBasic (BOp (SNum2 (B_int W32 Iadd))); FBasic (BOp (SLoad LI32 0%Z)); FBasic (BConst (VI32 2097151%Z)); FBasic (BOp (SNum2 (B_int W32 Iand))); FBasic (BSet 1); FEnd; FBlock false [] []; FBasic (BGet 4); FBasic (BGet 2); FBasic (BConst (VI32 1%Z)); FBasic (BOp (SNum2 (B_int W32 Iadd))); FBasic (BOp (SNum2 (B_irel W32 Ieq))); FBrIf 0; FBasic (BGet 0); FBasic (BGet 1); FBasic (BOp (SNum2 (B_int W32 Isub))); FBasic (BSet 3); FBasic (BGet 4); FBasic (BConst (VI32 (-1)%Z)); FBasic (BOp (SNum2 (B_int W32 Iadd))); FBasic (BSet 4); FBasic (BConst (VI32 0%Z)); FBasic (BSet 0); FBlock true [] []; FBasic (BGet 0); FBasic (BGet 2); FBasic (BConst (VI32 1053700%Z)); FBasic (BOp (SNum2 (B_int W32 Iadd))); FBasic (BOp (SLoad LI32_8u 0%Z)); FBasic (BOp (SNum2 (B_int W32 Iadd))); FBasic (BTee 0); FBasic (BGet 3); FBasic (BOp (SNum2 (B_irel W32 Igt_u))); FBrIf 1; FBasic (BGet 4); FBasic (BGet 2); FBasic (BConst (VI32 1%Z)); FBasic (BOp (SNum2 (B_int W32 Iadd))); FBasic (BTee 2); FBasic (BOp (SNum2 (B_irel W32 Ine))); FBrIf 0; FEnd; FEnd; FBasic (BGet 2); FBasic (BConst (VI32 1%Z)); FBasic (BOp (SNum2 (B_int W32 Iand))); FEnd]; b_bad := false |};
    PCode {| b_locals := []; b_badlocals := false; b_ops := [FBlock false [] []; FBasic (BGet 0); FBasic (BConst (VI32 32%Z)); FBasic (BOp (SNum2 (B_irel W32 Ige_u))); FBrIf 0; FBasic (BConst (VI32 0%Z)); FReturn; FEnd; FBlock false [] []; FBasic (BGet 0); FBasic (BConst (VI32 127%Z)); FBasic (BOp (SNum2 (B_irel W32 Ige_u))); FBrIf 0; FBasic (BConst (VI32 1%Z)); FReturn; FEnd; FBlock false [] []; FBasic (BGet 0); FBasic (BConst (VI32 65536%Z)); FBasic (BOp (SNum2 (B_irel W32 Ilt_u))); FBrIf 0; FBlock false [] []; FBasic (BGet 0); FBasic (BConst (VI32 131072%Z)); FBasic (BOp (SNum2 (B_irel W32 Ilt_u))); FBrIf 0; FBasic (BGet 0); FBasic (BConst (VI32 2097120%Z)); FBasic (BOp (SNum2 (B_int W32 Iand))); FBasic (BConst (VI32 173792%Z)); FBasic (BOp (SNum2 (B_irel W32 Ine))); FBasic (BGet 0); FBasic (BConst (VI32 2097150%Z)); FBasic (BOp (SNum2 (B_int W32 Iand))); FBasic (BConst (VI32 178206%Z)); FBasic (BOp (SNum2 (B_irel W32 Ine))); FBasic (BOp (SNum2 (B_int W32 Iand))); FBasic (BGet 0); FBasic (BConst (VI32 (-177984)%Z)); FBasic (BOp (SNum2 (B_int W32 Iadd))); FBasic (BConst (VI32 (-6)%Z)); FBasic (BOp (SNum2 (B_irel W32 Ilt_u))); FBasic (BOp (SNum2 (B_int W32 Iand))); FBasic (BGet 0); FBasic (BConst (VI32 (-183984)%Z)); FBasic (BOp (SNum2 (B_int W32 Iadd))); FBasic (BConst (VI32 (-14)%Z)); FBasic (BOp (SNum2 (B_irel W32 Ilt_u))); FBasic (BOp (SNum2 (B_int W32 Iand))); FBasic (BGet 0); FBasic (BConst (VI32 (-191472)%Z)); FBasic (BOp (SNum2 (B_int W32 Iadd))); FBasic (BConst (VI32 (-15)%Z)); FBasic (BOp (SNum2 (B_irel W32 Ilt_u))); FBasic (BOp (SNum2 (B_int W32 Iand))); FBasic (BGet 0); FBasic (BConst (VI32 (-194560)%Z)); FBasic (BOp (SNum2 (B_int W32 Iadd))); FBasic (BConst (VI32 (-2466)%Z)); FBasic (BOp (SNum2 (B_irel W32 Ilt_u))); FBasic (BOp (SNum2 (B_int W32 Iand))); FBasic (BGet 0); FBasic (BConst (VI32 (-196608)%Z)); FBasic (BOp (SNum2 (B_int W32 Iadd))); FBasic (BConst (VI32 (-1506)%Z)); FBasic (BOp (SNum2 (B_irel W32 Ilt_u))); FBasic (BOp (SNum2 (B_int W32 Iand))); FBasic (BGet 0); FBasic (BConst (VI32 (-201552)%Z)); FBasic (BOp (SNum2 (B_int W32 Iadd))); FBasic (BConst (VI32 (-5)%Z)); FBasic (BOp (SNum2 (B_irel W32 Ilt_u))); FBasic (BOp (SNum2 (B_int W32 Iand))); FBasic (BGet 0); FBasic (BConst (VI32 (-917760)%Z)); FBasic (BOp (SNum2 (B_int W32 Iadd))); FBasic (BConst (VI32 (-712016)%Z)); FBasic (BOp (SNum2 (B_irel W32 Ilt_u))); FBasic (BOp (SNum2 (B_int W32 Iand))); FBasic (BGet 0); FBasic (BConst (VI32 918000%Z)); FBasic (BOp (SNum2 (B_irel W32 Ilt_u))); FBasic (BOp (SNum2 (B_int W32 Iand))); FReturn; FEnd; FBasic (BGet 0); FBasic (BConst (VI32 1055416%Z)); FBasic (BConst (VI32 44%Z)); FBasic (BConst (VI32 1055504%Z)); FBasic (BConst (VI32 208%Z)); FBasic (BConst (VI32 1055712%Z)); FBasic (BConst (VI32 486%Z)); FCall 194; FReturn; FEnd; FBasic (BGet 0); FBasic (BConst (VI32 1056198%Z)); FBasic (BConst (VI32 40%Z)); FBasic (BConst (VI32 1056278%Z)); FBasic (BConst (VI32 290%Z)); FBasic (BConst (VI32 1056568%Z)); FBasic (BConst (VI32 297%Z)); FCall 194; FEnd]; b_bad := false |};
    PCode {| b_locals := [TI32; TI32; TI32; TI32]; b_badlocals := false; b_ops := [FBlock false [] []; FBlock false [] []; FBlock false [] []; FBlock false [] []; FBlock false [] []; FBasic (BGet 2); FBasic (BConst (VI32 7%Z)); FBasic (BOp (SNum2 (B_irel W32 Igt_u))); FBrIf 0; FBasic (BGet 2); FBasic (BOp (SNum1 (U_eqz W32))); FBrIf 3; FBasic (BGet 1); FBasic (BOp (SLoad LI32_8u 0%Z)); FBrIf 1; FBasic (BConst (VI32 0%Z)); FBasic (BSet 3); FBr 4; FEnd; FBlock false [] []; FBlock false [] []; FBasic (BGet 1); FBasic (BConst (VI32 3%Z)); FBasic (BOp (SNum2 (B_int W32 Iadd))); FBasic (BConst (VI32 (-4)%Z)); FBasic (BOp (SNum2 (B_int W32 Iand))); FBasic (BGet 1); FBasic (BOp (SNum2 (B_int W32 Isub))); FBasic (BTee 4); FBasic (BOp (SNum1 (U_eqz W32))); FBrIf 0; FBasic (BConst (VI32 0%Z)); FBasic (BSet 3); FBlock true [] []; FBasic (BGet 1); FBasic (BGet 3); FBasic (BOp (SNum2 (B_int W32 Iadd))); FBasic (BOp (SLoad LI32_8u 0%Z)); FBasic (BOp (SNum1 (U_eqz W32))); FBrIf 6; FBasic (BGet 4); FBasic (BGet 3); FBasic (BConst (VI32 1%Z)); FBasic (BOp (SNum2 (B_int W32 Iadd))); FBasic (BTee 3); FBasic (BOp (SNum2 (B_irel W32 Ine))); FBrIf 0; FEnd; FBasic (BGet 4); FBasic (BGet 2); FBasic (BConst (VI32 (-8)%Z)); FBasic (BOp (SNum2 (B_int W32 Iadd))); FBasic (BTee 5); FBasic (BOp (SNum2 (B_irel W32 Ile_u))); FBrIf 1; FBr 3; FEnd; FBasic (BGet 2); FBasic (BConst (VI32 (-8)%Z)); FBasic (BOp (SNum2 (B_int W32 Iadd))); FBasic (BSet 5); FEnd; FBlock true [] []; FBasic (BConst (VI32 16843008%Z)); FBasic (BGet 1); FBasic (BGet 4); FBasic (BOp (SNum2 (B_int W32 Iadd))); FBasic (BTee 3); FBasic (BOp (SLoad LI32 0%Z)); FBasic (BTee 6); FBasic (BOp (SNum2 (B_int W32 Isub))); FBasic (BGet 6); FBasic (BOp (SNum2 (B_int W32 Ior))); FBasic (BConst (VI32 16843008%Z)); FBasic (BGet 3); FBasic (BConst (VI32 4%Z)); FBasic (BOp (SNum2 (B_int W32 Iadd))); FBasic (BOp (SLoad LI32 0%Z)); FBasic (BTee 3); FBasic (BOp (SNum2 (B_int W32 Isub))); FBasic (BGet 3); FBasic (BOp (SNum2 (B_int W32 Ior))); FBasic (BOp (SNum2 (B_int W32 Iand))); FBasic (BConst (VI32 (-2139062144)%Z)); FBasic (BOp (SNum2 (B_int W32 Iand))); FBasic (BConst (VI32 (-2139062144)%Z)); FBasic (BOp (SNum2 (B_irel W32 Ine))); FBrIf 2; FBasic (BGet 4); FBasic (BConst (VI32 8%Z)); FBasic (BOp (SNum2 (B_int W32 Iadd))); FBasic (BTee 4); FBasic (BGet 5); FBasic (BOp (SNum2 (B_irel W32 Ile_u))); FBrIf 0; FBr 2; FEnd; FEnd; FBasic (BConst (VI32 1%Z)); FBasic (BSet 3); FBasic (BGet 2); FBasic (BConst (VI32 1%Z)); FBasic (BOp (SNum2 (B_irel W32 Ieq))); FBrIf 1; FBasic (BGet 1); FBasic (BOp (SLoad LI32_8u 1%Z)); FBasic (BOp (SNum1 (U_eqz W32))); FBrIf 2; FBasic (BConst (VI32 2%Z)); FBasic (BSet 3); FBasic (BGet 2); FBasic (BConst (VI32 2%Z)); FBasic (BOp (SNum2 (B_irel W32 Ieq))); FBrIf 1; FBasic (BGet 1); FBasic (BOp (SLoad LI32_8u 2%Z)); FBasic (BOp (SNum1 (U_eqz W32))); FBrIf 2; FBasic (BConst (VI32 3%Z)); FBasic (BSet 3); FBasic (BGet 2); FBasic (BConst (VI32 3%Z)); FBasic (BOp (SNum2 (B_irel W32 Ieq))); FBrIf 1; FBasic (BGet 1); FBasic (BOp (SLoad LI32_8u 3%Z)); FBasic (BOp (SNum1 (U_eqz W32))); FBrIf 2; FBasic (BConst (VI32 4%Z)); FBasic (BSet 3); FBasic (BGet 2); FBasic (BConst (VI32 4%Z)); FBasic (BOp (SNum2 (B_irel W32 Ieq))); FBrIf 1; FBasic (BGet 1); FBasic (BOp (SLoad LI32_8u 4%Z)); FBasic (BOp (SNum1 (U_eqz W32))); FBrIf 2; FBasic (BConst (VI32 5%Z)); FBasic (BSet 3); FBasic (BGet 2); FBasic (BConst (VI32 5%Z)); FBasic (BOp (SNum2 (B_irel W32 Ieq))); FBrIf 1; FBasic (BGet 1); FBasic (BOp (SLoad LI32_8u 5%Z)); FBasic (BOp (SNum1 (U_eqz W32))); FBrIf 2; FBasic (BConst (VI32 6%Z)); FBasic (BSet 3); FBasic (BGet 2); FBasic (BConst (VI32 6%Z)); FBasic (BOp (SNum2 (B_irel W32 Ieq))); FBrIf 1; FBasic (BGet 1); FBasic (BOp (SLoad LI32_8u 6%Z)); FBrIf 1; FBr 2; FEnd; FBasic (BGet 2); FBasic (BGet 4); FBasic (BOp (SNum2 (B_irel W32 Ieq))); FBrIf 0; FBlock true [] []; FBlock false [] []; FBasic (BGet 1); FBasic (BGet 4); FBasic (BOp (SNum2 (B_int W32 Iadd))); FBasic (BOp (SLoad LI32_8u 0%Z)); FBrIf 0; FBasic (BGet 4); FBasic (BSet 3); FBr 3; FEnd; FBasic (BGet 2); FBasic (BGet 4); FBasic (BConst (VI32 1%Z)); FBasic (BOp (SNum2 (B_int W32 Iadd))); FBasic (BTee 4); FBasic (BOp (SNum2 (B_irel W32 Ine))); FBrIf 0; FEnd; FEnd; FBasic (BGet 0); FBasic (BConst (VI32 1%Z)); FBasic (BOp (SStore SI32 4%Z)); FBasic (BGet 0); FBasic (BConst (VI32 1%Z)); FBasic (BOp (SStore SI32 0%Z)); FReturn; FEnd; FBlock false [] []; FBasic (BGet 3); FBasic (BConst (VI32 1%Z)); FBasic (BOp (SNum2 (B_int W32 Iadd))); FBasic (BGet 2); FBasic (BOp (SNum2 (B_irel W32 Ieq))); FBrIf 0; FBasic (BGet 0); FBasic (BGet 3); FBasic (BOp (SStore SI32 8%Z)); FBasic (BGet 0); FBasic (BConst (VI32 0%Z)); FBasic (BOp (SStore SI32 4%Z)); FBasic (BGet 0); FBasic (BConst (VI32 1%Z)); FBasic (BOp (SStore SI32 0%Z)); FReturn; FEnd; FBasic (BGet 0); FBasic (BGet 2); FBasic (BOp (SStore SI32 8%Z)); FBasic (BGet 0); FBasic (BGet 1); FBasic (BOp (SStore SI32 4%Z)); FBasic (BGet 0); FBasic (BConst (VI32 0%Z)); FBasic (BOp (SStore SI32 0%Z)); FEnd]; b_bad := false |};
    PCode {| b_locals := [TI32; TI32; TI32; TI32]; b_badlocals := false; b_ops := [FBasic (BOp (SGlobalGet TI32 0)); FBasic (BConst (VI32 32%Z)); FBasic (BOp (SNum2 (B_int W32 Isub))); FBasic (BTee 5); FBasic (BOp (SGlobalSet TI32 0)); FBasic (BConst (VI32 1%Z)); FBasic (BSet 6); FBlock false [] []; FBasic (BGet 0); FBasic (BOp (SLoad LI32_8u 4%Z)); FBrIf 0; FBasic (BGet 0); FBasic (BOp (SLoad LI32_8u 5%Z)); FBasic (BSet 7); FBlock false [] []; FBasic (BGet 0); FBasic (BOp (SLoad LI32 0%Z)); FBasic (BTee 8); FBasic (BOp (SLoad LI32_8u 10%Z)); FBasic (BConst (VI32 128%Z)); FBasic (BOp (SNum2 (B_int W32 Iand))); FBrIf 0; FBasic (BConst (VI32 1%Z)); FBasic (BSet 6); FBasic (BGet 8); FBasic (BOp (SLoad LI32 0%Z)); FBasic (BConst (VI32 1054795%Z)); FBasic (BConst (VI32 1054792%Z)); FBasic (BGet 7); FBasic (BConst (VI32 1%Z)); FBasic (BOp (SNum2 (B_int W32 Iand))); FBasic (BTee 7); FBasic (BSelect None); FBasic (BConst (VI32 2%Z)); FBasic (BConst (VI32 3%Z)); FBasic (BGet 7); FBasic (BSelect None); FBasic (BGet 8); FBasic (BOp (SLoad LI32 4%Z)); FBasic (BOp (SLoad LI32 12%Z)); FCallInd 5 0; FBrIf 1; FBasic (BGet 8); FBasic (BOp (SLoad LI32 0%Z)); FBasic (BGet 1); FBasic (BGet 2); FBasic (BGet 8); FBasic (BOp (SLoad LI32 4%Z)); FBasic (BOp (SLoad LI32 12%Z)); FCallInd 5 0; FBrIf 1; FBasic (BGet 8); FBasic (BOp (SLoad LI32 0%Z)); FBasic (BConst (VI32 1054744%Z)); FBasic (BConst (VI32 2%Z)); FBasic (BGet 8); FBasic (BOp (SLoad LI32 4%Z)); FBasic (BOp (SLoad LI32 12%Z)); FCallInd 5 0; FBrIf 1; FBasic (BGet 3); FBasic (BGet 8); FBasic (BGet 4); FBasic (BOp (SLoad LI32 12%Z)); FCallInd 2 0; FBasic (BSet 6); FBr 1; FEnd; FBasic (BConst (VI32 1%Z)); FBasic (BSet 6); FBlock false [] []; FBasic (BGet 7); FBasic (BConst (VI32 1%Z)); FBasic (BOp (SNum2 (B_int W32 Iand))); FBrIf 0; FBasic (BGet 8); FBasic (BOp (SLoad LI32 0%Z)); FBasic (BConst (VI32 1054797%Z)); FBasic (BConst (VI32 3%Z)); FBasic (BGet 8); FBasic (BOp (SLoad LI32 4%Z)); FBasic (BOp (SLoad LI32 12%Z)); FCallInd 5 0; FBrIf 1; FEnd; FBasic (BConst (VI32 1%Z)); FBasic (BSet 6); FBasic (BGet 5); FBasic (BConst (VI32 1%Z)); FBasic (BOp (SStore SI32_8 15%Z)); FBasic (BGet 5); FBasic (BConst (VI32 1054764%Z)); FBasic (BOp (SStore SI32 20%Z)); FBasic (BGet 5); FBasic (BGet 8); FBasic (BOp (SLoad LI64 0%Z)); FBasic (BOp (SStore SI64 0%Z)); FBasic (BGet 5); FBasic (BGet 8); FBasic (BOp (SLoad LI64 8%Z)); FBasic (BOp (SStore SI64 24%Z)); FBasic (BGet 5); FBasic (BGet 5); FBasic (BConst (VI32 15%Z)); FBasic (BOp (SNum2 (B_int W32 Iadd))); FBasic (BOp (SStore SI32 8%Z)); FBasic (BGet 5); FBasic (BGet 5); FBasic (BOp (SStore SI32 16%Z)); FBasic (BGet 5); FBasic (BGet 1); FBasic (BGet 2); FCall 177; FBrIf 0; FBasic (BGet 5); FBasic (BConst (VI32 1054744%Z)); FBasic (BConst (VI32 2%Z)); FCall 177; FBrIf 0; FBasic (BGet 3); FBasic (BGet 5); FBasic (BConst (VI32 16%Z)); FBasic (BOp (SNum2 (B_int W32 Iadd))); FBasic (BGet 4); FBasic (BOp (SLoad LI32 12%Z)); FCallInd 2 0; FBrIf 0; FBasic (BGet 5); FBasic (BOp (SLoad LI32 16%Z)); FBasic (BConst (VI32 1054800%Z)); FBasic (BConst (VI32 2%Z)); FBasic (BGet 5); FBasic (BOp (SLoad LI32 20%Z)); FBasic (BOp (SLoad LI32 12%Z)); FCallInd 5 0; FBasic (BSet 6); FEnd; FBasic (BGet 0); FBasic (BConst (VI32 1%Z)); FBasic (BOp (SStore SI32_8 5%Z)); FBasic (BGet 0); FBasic (BGet 6); FBasic (BOp (SStore SI32_8 4%Z)); FBasic (BGet 5); FBasic (BConst (VI32 32%Z)); FBasic (BOp (SNum2 (B_int W32 Iadd))); FBasic (BOp (SGlobalSet TI32 0)); FBasic (BGet 0); FEnd]; b_bad := false |};
    PCode {| b_locals := [TI32]; b_badlocals := false; b_ops := [FBasic (BOp (SGlobalGet TI32 0)); FBasic (BConst (VI32 64%Z)); FBasic (BOp (SNum2 (B_int W32 Isub))); FBasic (BTee 5); FBasic (BOp (SGlobalSet TI32 0)); FBasic (BGet 5); FBasic (BGet 1); FBasic (BOp (SStore SI32 12%Z)); FBasic (BGet 5); FBasic (BGet 0); FBasic (BOp (SStore SI32 8%Z)); FBasic (BGet 5); FBasic (BGet 3); FBasic (BOp (SStore SI32 20%Z)); FBasic (BGet 5); FBasic (BGet 2); FBasic (BOp (SStore SI32 16%Z)); FBasic (BGet 5); FBasic (BConst (VI32 2%Z)); FBasic (BOp (SStore SI32 28%Z)); FBasic (BGet 5); FBasic (BConst (VI32 1054748%Z)); FBasic (BOp (SStore SI32 24%Z)); FBasic (BGet 5); FBasic (BConst (VI64 2%Z)); FBasic (BOp (SStore SI64 36%Z)); FBasic (BGet 5); FBasic (BConst (VI32 55%Z)); FBasic (BOp (SCvt (C_ext Ux))); FBasic (BConst (VI64 32%Z)); FBasic (BOp (SNum2 (B_int W64 Ishl))); FBasic (BGet 5); FBasic (BConst (VI32 16%Z)); FBasic (BOp (SNum2 (B_int W32 Iadd))); FBasic (BOp (SCvt (C_ext Ux))); FBasic (BOp (SNum2 (B_int W64 Ior))); FBasic (BOp (SStore SI64 56%Z)); FBasic (BGet 5); FBasic (BConst (VI32 56%Z)); FBasic (BOp (SCvt (C_ext Ux))); FBasic (BConst (VI64 32%Z)); FBasic (BOp (SNum2 (B_int W64 Ishl))); FBasic (BGet 5); FBasic (BConst (VI32 8%Z)); FBasic (BOp (SNum2 (B_int W32 Iadd))); FBasic (BOp (SCvt (C_ext Ux))); FBasic (BOp (SNum2 (B_int W64 Ior))); FBasic (BOp (SStore SI64 48%Z)); FBasic (BGet 5); FBasic (BGet 5); FBasic (BConst (VI32 48%Z)); FBasic (BOp (SNum2 (B_int W32 Iadd))); FBasic (BOp (SStore SI32 32%Z)); FBasic (BGet 5); FBasic (BConst (VI32 24%Z)); FBasic (BOp (SNum2 (B_int W32 Iadd))); FBasic (BGet 4); FCall 152; FUnreachable; FEnd]; b_bad := false |};
    PCode {| b_locals := []; b_badlocals := false; b_ops := [FBasic (BGet 0); FBasic (BGet 1); FBasic (BGet 2); FCall 192; FUnreachable; FEnd]; b_bad := false |};
    PCode {| b_locals := []; b_badlocals := false; b_ops := [FBasic (BGet 0); FBasic (BOp (SLoad LI32_16u 0%Z)); FBasic (BConst (VI32 1%Z)); FBasic (BGet 1); FCall 195; FEnd]; b_bad := false |};
    PCode {| b_locals := []; b_badlocals := false; b_ops := [FBasic (BGet 0); FBasic (BOp (SLoad LI32 0%Z)); FBasic (BConst (VI32 1%Z)); FBasic (BGet 1); FCall 155; FEnd]; b_bad := false |};
    PCode {| b_locals := []; b_badlocals := false; b_ops := [FBasic (BConst (VI32 1054512%Z)); FBasic (BConst (VI32 43%Z)); FBasic (BGet 0); FCall 151; FUnreachable; FEnd]; b_bad := false |};
    PCode {| b_locals := []; b_badlocals := false; b_ops := [FBasic (BGet 1); FBasic (BGet 0); FBasic (BOp (SLoad LI32 0%Z)); FBasic (BGet 0); FBasic (BOp (SLoad LI32 4%Z)); FCall 150; FEnd]; b_bad := false |};
    PCode {| b_locals := [TI32]; b_badlocals := false; b_ops := [FBasic (BOp (SGlobalGet TI32 0)); FBasic (BConst (VI32 48%Z)); FBasic (BOp (SNum2 (B_int W32 Isub))); FBasic (BTee 3); FBasic (BOp (SGlobalSet TI32 0)); FBasic (BGet 3); FBasic (BConst (VI32 8%Z)); FBasic (BOp (SNum2 (B_int W32 Iadd))); FBasic (BConst (VI32 16%Z)); FBasic (BOp (SNum2 (B_int W32 Iadd))); FBasic (BGet 0); FBasic (BConst (VI32 16%Z)); FBasic (BOp (SNum2 (B_int W32 Iadd))); FBasic (BOp (SLoad LI64 0%Z)); FBasic (BOp (SStore SI64 0%Z)); FBasic (BGet 3); FBasic (BConst (VI32 8%Z)); FBasic (BOp (SNum2 (B_int W32 Iadd))); FBasic (BConst (VI32 8%Z)); FBasic (BOp (SNum2 (B_int W32 Iadd))); FBasic (BGet 0); FBasic (BConst (VI32 8%Z)); FBasic (BOp (SNum2 (B_int W32 Iadd))); FBasic (BOp (SLoad LI64 0%Z)); FBasic (BOp (SStore SI64 0%Z)); FBasic (BGet 3); FBasic (BGet 0); FBasic (BOp (SLoad LI64 0%Z)); FBasic (BOp (SStore SI64 8%Z)); FBasic (BGet 3); FBasic (BGet 1); FBasic (BOp (SStore SI32_8 45%Z)); FBasic (BGet 3); FBasic (BConst (VI32 0%Z)); FBasic (BOp (SStore SI32_8 44%Z)); FBasic (BGet 3); FBasic (BGet 2); FBasic (BOp (SStore SI32 40%Z)); FBasic (BGet 3); FBasic (BGet 3); FBasic (BConst (VI32 8%Z)); FBasic (BOp (SNum2 (B_int W32 Iadd))); FBasic (BOp (SStore SI32 36%Z)); FBasic (BGet 3); FBasic (BConst (VI32 36%Z)); FBasic (BOp (SNum2 (B_int W32 Iadd))); FCall 93; FUnreachable; FEnd]; b_bad := false |};
    PCode {| b_locals := [TI32]; b_badlocals := false; b_ops := [FBasic (BOp (SGlobalGet TI32 0)); FBasic (BConst (VI32 32%Z)); FBasic (BOp (SNum2 (B_int W32 Isub))); FBasic (BTee 2); FBasic (BOp (SGlobalSet TI32 0)); FBasic (BGet 2); FBasic (BConst (VI32 0%Z)); FBasic (BOp (SStore SI32 16%Z)); FBasic (BGet 2); FBasic (BConst (VI32 1%Z)); FBasic (BOp (SStore SI32 4%Z)); FBasic (BGet 2); FBasic (BConst (VI64 4%Z)); FBasic (BOp (SStore SI64 8%Z)); FBasic (BGet 2); FBasic (BGet 1); FBasic (BOp (SStore SI32 28%Z)); FBasic (BGet 2); FBasic (BGet 0); FBasic (BOp (SStore SI32 24%Z)); FBasic (BGet 2); FBasic (BGet 2); FBasic (BConst (VI32 24%Z)); FBasic (BOp (SNum2 (B_int W32 Iadd))); FBasic (BOp (SStore SI32 0%Z)); FBasic (BGet 2); FBasic (BConst (VI32 0%Z)); FBasic (BConst (VI32 1054584%Z)); FCall 172; FUnreachable; FEnd]; b_bad := false |};
    PCode {| b_locals := [TI32; TI64]; b_badlocals := false; b_ops := [FBasic (BOp (SGlobalGet TI32 0)); FBasic (BConst (VI32 112%Z)); FBasic (BOp (SNum2 (B_int W32 Isub))); FBasic (BTee 7); FBasic (BOp (SGlobalSet TI32 0)); FBasic (BGet 7); FBasic (BGet 2); FBasic (BOp (SStore SI32 12%Z)); FBasic (BGet 7); FBasic (BGet 1); FBasic (BOp (SStore SI32 8%Z)); FBasic (BGet 7); FBasic (BGet 4); FBasic (BOp (SStore SI32 20%Z)); FBasic (BGet 7); FBasic (BGet 3); FBasic (BOp (SStore SI32 16%Z)); FBasic (BGet 7); FBasic (BGet 0); FBasic (BConst (VI32 255%Z)); FBasic (BOp (SNum2 (B_int W32 Iand))); FBasic (BConst (VI32 2%Z)); FBasic (BOp (SNum2 (B_int W32 Ishl))); FBasic (BTee 2); FBasic (BConst (VI32 1057168%Z)); FBasic (BOp (SNum2 (B_int W32 Iadd))); FBasic (BOp (SLoad LI32 0%Z)); FBasic (BOp (SStore SI32 28%Z)); FBasic (BGet 7); FBasic (BGet 2); FBasic (BConst (VI32 1057156%Z)); FBasic (BOp (SNum2 (B_int W32 Iadd))); FBasic (BOp (SLoad LI32 0%Z)); FBasic (BOp (SStore SI32 24%Z)); FBlock false [] []; FBasic (BGet 5); FBasic (BOp (SLoad LI32 0%Z)); FBasic (BOp (SNum1 (U_eqz W32))); FBrIf 0; FBasic (BGet 7); FBasic (BConst (VI32 32%Z)); FBasic (BOp (SNum2 (B_int W32 Iadd))); FBasic (BConst (VI32 16%Z)); FBasic (BOp (SNum2 (B_int W32 Iadd))); FBasic (BGet 5); FBasic (BConst (VI32 16%Z)); FBasic (BOp (SNum2 (B_int W32 Iadd))); FBasic (BOp (SLoad LI64 0%Z)); FBasic (BOp (SStore SI64 0%Z)); FBasic (BGet 7); FBasic (BConst (VI32 32%Z)); FBasic (BOp (SNum2 (B_int W32 Iadd))); FBasic (BConst (VI32 8%Z)); FBasic (BOp (SNum2 (B_int W32 Iadd))); FBasic (BGet 5); FBasic (BConst (VI32 8%Z)); FBasic (BOp (SNum2 (B_int W32 Iadd))); FBasic (BOp (SLoad LI64 0%Z)); FBasic (BOp (SStore SI64 0%Z)); FBasic (BGet 7); FBasic (BGet 5); FBasic (BOp (SLoad LI64 0%Z)); FBasic (BOp (SStore SI64 32%Z)); FBasic (BGet 7); FBasic (BConst (VI32 4%Z)); FBasic (BOp (SStore SI32 92%Z)); FBasic (BGet 7); FBasic (BConst (VI32 1054712%Z)); FBasic (BOp (SStore SI32 88%Z)); FBasic (BGet 7); FBasic (BConst (VI64 4%Z)); FBasic (BOp (SStore SI64 100%Z)); FBasic (BGet 7); FBasic (BConst (VI32 55%Z)); FBasic (BOp (SCvt (C_ext Ux))); FBasic (BConst (VI64 32%Z)); FBasic (BOp (SNum2 (B_int W64 Ishl))); FBasic (BTee 8); FBasic (BGet 7); FBasic (BConst (VI32 16%Z)); FBasic (BOp (SNum2 (B_int W32 Iadd))); FBasic (BOp (SCvt (C_ext Ux))); FBasic (BOp (SNum2 (B_int W64 Ior))); FBasic (BOp (SStore SI64 80%Z)); FBasic (BGet 7); FBasic (BGet 8); FBasic (BGet 7); FBasic (BConst (VI32 8%Z)); FBasic (BOp (SNum2 (B_int W32 Iadd))); FBasic (BOp (SCvt (C_ext Ux))); FBasic (BOp (SNum2 (B_int W64 Ior))); FBasic (BOp (SStore SI64 72%Z)); FBasic (BGet 7); FBasic (BConst (VI32 57%Z)); FBasic (BOp (SCvt (C_ext Ux))); FBasic (BConst (VI64 32%Z)); FBasic (BOp (SNum2 (B_int W64 Ishl))); FBasic (BGet 7); FBasic (BConst (VI32 32%Z)); FBasic (BOp (SNum2 (B_int W32 Iadd))); FBasic (BOp (SCvt (C_ext Ux))); FBasic (BOp (SNum2 (B_int W64 Ior))); FBasic (BOp (SStore SI64 64%Z)); FBasic (BGet 7); FBasic (BConst (VI32 56%Z)); FBasic (BOp (SCvt (C_ext Ux))); FBasic (BConst (VI64 32%Z)); FBasic (BOp (SNum2 (B_int W64 Ishl))); FBasic (BGet 7); FBasic (BConst (VI32 24%Z)); FBasic (BOp (SNum2 (B_int W32 Iadd))); FBasic (BOp (SCvt (C_ext Ux))); FBasic (BOp (SNum2 (B_int W64 Ior))); FBasic (BOp (SStore SI64 56%Z)); FBasic (BGet 7); FBasic (BGet 7); FBasic (BConst (VI32 56%Z)); FBasic (BOp (SNum2 (B_int W32 Iadd))); FBasic (BOp (SStore SI32 96%Z)); FBasic (BGet 7); FBasic (BConst (VI32 88%Z)); FBasic (BOp (SNum2 (B_int W32 Iadd))); FBasic (BGet 6); FCall 152; FUnreachable; FEnd; FBasic (BGet 7); FBasic (BConst (VI32 3%Z)); FBasic (BOp (SStore SI32 92%Z)); FBasic (BGet 7); FBasic (BConst (VI32 1054660%Z)); FBasic (BOp (SStore SI32 88%Z)); FBasic (BGet 7); FBasic (BConst (VI64 3%Z)); FBasic (BOp (SStore SI64 100%Z)); FBasic (BGet 7); FBasic (BConst (VI32 55%Z)); FBasic (BOp (SCvt (C_ext Ux))); FBasic (BConst (VI64 32%Z)); FBasic (BOp (SNum2 (B_int W64 Ishl))); FBasic (BTee 8); FBasic (BGet 7); FBasic (BConst (VI32 16%Z)); FBasic (BOp (SNum2 (B_int W32 Iadd))); FBasic (BOp (SCvt (C_ext Ux))); FBasic (BOp (SNum2 (B_int W64 Ior))); FBasic (BOp (SStore SI64 72%Z)); FBasic (BGet 7); FBasic (BGet 8); FBasic (BGet 7); FBasic (BConst (VI32 8%Z)); FBasic (BOp (SNum2 (B_int W32 Iadd))); FBasic (BOp (SCvt (C_ext Ux))); FBasic (BOp (SNum2 (B_int W64 Ior))); FBasic (BOp (SStore SI64 64%Z)); FBasic (BGet 7); FBasic (BConst (VI32 56%Z)); FBasic (BOp (SCvt (C_ext Ux))); FBasic (BConst (VI64 32%Z)); FBasic (BOp (SNum2 (B_int W64 Ishl))); FBasic (BGet 7); FBasic (BConst (VI32 24%Z)); FBasic (BOp (SNum2 (B_int W32 Iadd))); FBasic (BOp (SCvt (C_ext Ux))); FBasic (BOp (SNum2 (B_int W64 Ior))); FBasic (BOp (SStore SI64 56%Z)); FBasic (BGet 7); FBasic (BGet 7); FBasic (BConst (VI32 56%Z)); FBasic (BOp (SNum2 (B_int W32 Iadd))); FBasic (BOp (SStore SI32 96%Z)); FBasic (BGet 7); FBasic (BConst (VI32 88%Z)); FBasic (BOp (SNum2 (B_int W32 Iadd))); FBasic (BGet 6); FCall 152; FUnreachable; FEnd]; b_bad := false |};
    PCode {| b_locals := []; b_badlocals := false; b_ops := [FBasic (BGet 0); FBasic (BOp (SLoad LI32 0%Z)); FBasic (BGet 1); FBasic (BGet 0); FBasic (BOp (SLoad LI32 4%Z)); FBasic (BOp (SLoad LI32 12%Z)); FCallInd 2 0; FEnd]; b_bad := false |};
    PCode {| b_locals := []; b_badlocals := false; b_ops := [FBasic (BGet 1); FBasic (BOp (SLoad LI32 0%Z)); FBasic (BGet 1); FBasic (BOp (SLoad LI32 4%Z)); FBasic (BGet 0); FCall 153; FEnd]; b_bad := false |};
    PCode {| b_locals := [TI32; TI32; TI32; TI32; TI32; TI32; TI32; TI32; TI32; TI32; TI32; TI32]; b_badlocals := false; b_ops := [FBasic (BGet 1); FBasic (BConst (VI32 (-1)%Z)); FBasic (BOp (SNum2 (B_int W32 Iadd))); FBasic (BSet 3); FBasic (BGet 0); FBasic (BOp (SLoad LI32 4%Z)); FBasic (BSet 4); FBasic (BGet 0); FBasic (BOp (SLoad LI32 0%Z)); FBasic (BSet 5); FBasic (BGet 0); FBasic (BOp (SLoad LI32 8%Z)); FBasic (BSet 6); FBasic (BConst (VI32 0%Z)); FBasic (BSet 7); FBasic (BConst (VI32 0%Z)); FBasic (BSet 8); FBasic (BConst (VI32 0%Z)); FBasic (BSet 9); FBasic (BConst (VI32 0%Z)); FBasic (BSet 10); FBlock false [] []; FBlock true [] []; FBasic (BGet 10); FBasic (BConst (VI32 1%Z)); FBasic (BOp (SNum2 (B_int W32 Iand))); FBrIf 1; FBlock false [] []; FBlock false [] []; FBasic (BGet 2); FBasic (BGet 9); FBasic (BOp (SNum2 (B_irel W32 Ilt_u))); FBrIf 0; FBlock true [] []; FBasic (BGet 1); FBasic (BGet 9); FBasic (BOp (SNum2 (B_int W32 Iadd))); FBasic (BSet 10); FBlock false [] []; FBlock false [] []; FBlock false [] []; FBlock false [] []; FBasic (BGet 2); FBasic (BGet 9); FBasic (BOp (SNum2 (B_int W32 Isub))); FBasic (BTee 11); FBasic (BConst (VI32 7%Z)); FBasic (BOp (SNum2 (B_irel W32 Igt_u))); FBrIf 0; FBasic (BGet 2); FBasic (BGet 9); FBasic (BOp (SNum2 (B_irel W32 Ine))); FBrIf 1; FBasic (BGet 2); FBasic (BSet 9); FBr 5; FEnd; FBlock false [] []; FBlock false [] []; FBasic (BGet 10); FBasic (BConst (VI32 3%Z)); FBasic (BOp (SNum2 (B_int W32 Iadd))); FBasic (BConst (VI32 (-4)%Z)); FBasic (BOp (SNum2 (B_int W32 Iand))); FBasic (BTee 12); FBasic (BGet 10); FBasic (BOp (SNum2 (B_int W32 Isub))); FBasic (BTee 13); FBasic (BOp (SNum1 (U_eqz W32))); FBrIf 0; FBasic (BConst (VI32 0%Z)); FBasic (BSet 0); FBlock true [] []; FBasic (BGet 10); FBasic (BGet 0); FBasic (BOp (SNum2 (B_int W32 Iadd))); FBasic (BOp (SLoad LI32_8u 0%Z)); FBasic (BConst (VI32 10%Z)); FBasic (BOp (SNum2 (B_irel W32 Ieq))); FBrIf 5; FBasic (BGet 13); FBasic (BGet 0); FBasic (BConst (VI32 1%Z)); FBasic (BOp (SNum2 (B_int W32 Iadd))); FBasic (BTee 0); FBasic (BOp (SNum2 (B_irel W32 Ine))); FBrIf 0; FEnd; FBasic (BGet 13); FBasic (BGet 11); FBasic (BConst (VI32 (-8)%Z)); FBasic (BOp (SNum2 (B_int W32 Iadd))); FBasic (BTee 14); FBasic (BOp (SNum2 (B_irel W32 Ile_u))); FBrIf 1; FBr 3; FEnd; FBasic (BGet 11); FBasic (BConst (VI32 (-8)%Z)); FBasic (BOp (SNum2 (B_int W32 Iadd))); FBasic (BSet 14); FEnd; FBlock true [] []; FBasic (BConst (VI32 16843008%Z)); FBasic (BGet 12); FBasic (BOp (SLoad LI32 0%Z)); FBasic (BTee 0); FBasic (BConst (VI32 168430090%Z)); FBasic (BOp (SNum2 (B_int W32 Ixor))); FBasic (BOp (SNum2 (B_int W32 Isub))); FBasic (BGet 0); FBasic (BOp (SNum2 (B_int W32 Ior))); FBasic (BConst (VI32 16843008%Z)); FBasic (BGet 12); FBasic (BConst (VI32 4%Z)); FBasic (BOp (SNum2 (B_int W32 Iadd))); FBasic (BOp (SLoad LI32 0%Z)); FBasic (BTee 0); FBasic (BConst (VI32 168430090%Z)); FBasic (BOp (SNum2 (B_int W32 Ixor))); FBasic (BOp (SNum2 (B_int W32 Isub))); FBasic (BGet 0); FBasic (BOp (SNum2 (B_int W32 Ior))); FBasic (BOp (SNum2 (B_int W32 Iand))); FBasic (BConst (VI32 (-2139062144)%Z)); FBasic (BOp (SNum2 (B_int W32 Iand))); FBasic (BConst (VI32 (-2139062144)%Z)); FBasic (BOp (SNum2 (B_irel W32 Ine))); FBrIf 2; FBasic (BGet 12); FBasic (BConst (VI32 8%Z)); FBasic (BOp (SNum2 (B_int W32 Iadd))); FBasic (BSet 12); FBasic (BGet 13); FBasic (BConst (VI32 8%Z)); FBasic (BOp (SNum2 (B_int W32 Iadd))); FBasic (BTee 13); FBasic (BGet 14); FBasic (BOp (SNum2 (B_irel W32 Ile_u))); FBrIf 0; FBr 2; FEnd; FEnd; FBasic (BConst (VI32 0%Z)); FBasic (BSet 0); FBlock true [] []; FBasic (BGet 10); FBasic (BGet 0); FBasic (BOp (SNum2 (B_int W32 Iadd))); FBasic (BOp (SLoad LI32_8u 0%Z)); FBasic (BConst (VI32 10%Z)); FBasic (BOp (SNum2 (B_irel W32 Ieq))); FBrIf 2; FBasic (BGet 11); FBasic (BGet 0); FBasic (BConst (VI32 1%Z)); FBasic (BOp (SNum2 (B_int W32 Iadd))); FBasic (BTee 0); FBasic (BOp (SNum2 (B_irel W32 Ine))); FBrIf 0; FEnd; FBasic (BGet 2); FBasic (BSet 9); FBr 3; FEnd; FBlock false [] []; FBasic (BGet 11); FBasic (BGet 13); FBasic (BOp (SNum2 (B_irel W32 Ine))); FBrIf 0; FBasic (BGet 2); FBasic (BSet 9); FBr 3; FEnd; FBlock true [] []; FBlock false [] []; FBasic (BGet 10); FBasic (BGet 13); FBasic (BOp (SNum2 (B_int W32 Iadd))); FBasic (BOp (SLoad LI32_8u 0%Z)); FBasic (BConst (VI32 10%Z)); FBasic (BOp (SNum2 (B_irel W32 Ine))); FBrIf 0; FBasic (BGet 13); FBasic (BSet 0); FBr 2; FEnd; FBasic (BGet 11); FBasic (BGet 13); FBasic (BConst (VI32 1%Z)); FBasic (BOp (SNum2 (B_int W32 Iadd))); FBasic (BTee 13); FBasic (BOp (SNum2 (B_irel W32 Ine))); FBrIf 0; FEnd; FBasic (BGet 2); FBasic (BSet 9); FBr 2; FEnd; FBasic (BGet 0); FBasic (BGet 9); FBasic (BOp (SNum2 (B_int W32 Iadd))); FBasic (BTee 13); FBasic (BConst (VI32 1%Z)); FBasic (BOp (SNum2 (B_int W32 Iadd))); FBasic (BSet 9); FBlock false [] []; FBasic (BGet 13); FBasic (BGet 2); FBasic (BOp (SNum2 (B_irel W32 Ige_u))); FBrIf 0; FBasic (BGet 10); FBasic (BGet 0); FBasic (BOp (SNum2 (B_int W32 Iadd))); FBasic (BOp (SLoad LI32_8u 0%Z)); FBasic (BConst (VI32 10%Z)); FBasic (BOp (SNum2 (B_irel W32 Ine))); FBrIf 0; FBasic (BConst (VI32 0%Z)); FBasic (BSet 10); FBasic (BGet 9); FBasic (BSet 12); FBasic (BGet 9); FBasic (BSet 0); FBr 3; FEnd; FBasic (BGet 9); FBasic (BGet 2); FBasic (BOp (SNum2 (B_irel W32 Ile_u))); FBrIf 0; FEnd; FEnd; FBasic (BGet 2); FBasic (BGet 8); FBasic (BOp (SNum2 (B_irel W32 Ieq))); FBrIf 2; FBasic (BConst (VI32 1%Z)); FBasic (BSet 10); FBasic (BGet 8); FBasic (BSet 12); FBasic (BGet 2); FBasic (BSet 0); FEnd; FBlock false [] []; FBlock false [] []; FBasic (BGet 6); FBasic (BOp (SLoad LI32_8u 0%Z)); FBasic (BOp (SNum1 (U_eqz W32))); FBrIf 0; FBasic (BGet 5); FBasic (BConst (VI32 1054788%Z)); FBasic (BConst (VI32 4%Z)); FBasic (BGet 4); FBasic (BOp (SLoad LI32 12%Z)); FCallInd 5 0; FBrIf 1; FEnd; FBasic (BGet 0); FBasic (BGet 8); FBasic (BOp (SNum2 (B_int W32 Isub))); FBasic (BSet 11); FBasic (BConst (VI32 0%Z)); FBasic (BSet 13); FBlock false [] []; FBasic (BGet 0); FBasic (BGet 8); FBasic (BOp (SNum2 (B_irel W32 Ieq))); FBrIf 0; FBasic (BGet 3); FBasic (BGet 0); FBasic (BOp (SNum2 (B_int W32 Iadd))); FBasic (BOp (SLoad LI32_8u 0%Z)); FBasic (BConst (VI32 10%Z)); FBasic (BOp (SNum2 (B_irel W32 Ieq))); FBasic (BSet 13); FEnd; FBasic (BGet 1); FBasic (BGet 8); FBasic (BOp (SNum2 (B_int W32 Iadd))); FBasic (BSet 0); FBasic (BGet 6); FBasic (BGet 13); FBasic (BOp (SStore SI32_8 0%Z)); FBasic (BGet 12); FBasic (BSet 8); FBasic (BGet 5); FBasic (BGet 0); FBasic (BGet 11); FBasic (BGet 4); FBasic (BOp (SLoad LI32 12%Z)); FCallInd 5 0; FBasic (BOp (SNum1 (U_eqz W32))); FBrIf 1; FEnd; FEnd; FBasic (BConst (VI32 1%Z)); FBasic (BSet 7); FEnd; FBasic (BGet 7); FEnd]; b_bad := false |};
    PCode {| b_locals := [TI32; TI32]; b_badlocals := false; b_ops := [FBasic (BGet 0); FBasic (BOp (SLoad LI32 4%Z)); FBasic (BSet 2); FBasic (BGet 0); FBasic (BOp (SLoad LI32 0%Z)); FBasic (BSet 3); FBlock false [] []; FBasic (BGet 0); FBasic (BOp (SLoad LI32 8%Z)); FBasic (BTee 0); FBasic (BOp (SLoad LI32_8u 0%Z)); FBasic (BOp (SNum1 (U_eqz W32))); FBrIf 0; FBasic (BGet 3); FBasic (BConst (VI32 1054788%Z)); FBasic (BConst (VI32 4%Z)); FBasic (BGet 2); FBasic (BOp (SLoad LI32 12%Z)); FCallInd 5 0; FBasic (BOp (SNum1 (U_eqz W32))); FBrIf 0; FBasic (BConst (VI32 1%Z)); FReturn; FEnd; FBasic (BGet 0); FBasic (BGet 1); FBasic (BConst (VI32 10%Z)); FBasic (BOp (SNum2 (B_irel W32 Ieq))); FBasic (BOp (SStore SI32_8 0%Z)); FBasic (BGet 3); FBasic (BGet 1); FBasic (BGet 2); FBasic (BOp (SLoad LI32 16%Z)); FCallInd 2 0; FEnd]; b_bad := false |};
    PCode {| b_locals := [TI32; TI32]; b_badlocals := false; b_ops := [FBasic (BGet 0); FBasic (BOp (SLoad LI32_8u 4%Z)); FBasic (BTee 1); FBasic (BSet 2); FBlock false [] []; FBasic (BGet 0); FBasic (BOp (SLoad LI32_8u 5%Z)); FBasic (BOp (SNum1 (U_eqz W32))); FBrIf 0; FBasic (BConst (VI32 1%Z)); FBasic (BSet 2); FBlock false [] []; FBasic (BGet 1); FBasic (BConst (VI32 1%Z)); FBasic (BOp (SNum2 (B_int W32 Iand))); FBrIf 0; FBlock false [] []; FBasic (BGet 0); FBasic (BOp (SLoad LI32 0%Z)); FBasic (BTee 2); FBasic (BOp (SLoad LI32_8u 10%Z)); FBasic (BConst (VI32 128%Z)); FBasic (BOp (SNum2 (B_int W32 Iand))); FBrIf 0; FBasic (BGet 2); FBasic (BOp (SLoad LI32 0%Z)); FBasic (BConst (VI32 1054803%Z)); FBasic (BConst (VI32 2%Z)); FBasic (BGet 2); FBasic (BOp (SLoad LI32 4%Z)); FBasic (BOp (SLoad LI32 12%Z)); FCallInd 5 0; FBasic (BSet 2); FBr 1; FEnd; FBasic (BGet 2); FBasic (BOp (SLoad LI32 0%Z)); FBasic (BConst (VI32 1054802%Z)); FBasic (BConst (VI32 1%Z)); FBasic (BGet 2); FBasic (BOp (SLoad LI32 4%Z)); FBasic (BOp (SLoad LI32 12%Z)); FCallInd 5 0; FBasic (BSet 2); FEnd; FBasic (BGet 0); FBasic (BGet 2); FBasic (BOp (SStore SI32_8 4%Z)); FEnd; FBasic (BGet 2); FBasic (BConst (VI32 1%Z)); FBasic (BOp (SNum2 (B_int W32 Iand))); FEnd]; b_bad := false |};
    PCode {| b_locals := []; b_badlocals := false; b_ops := [FBasic (BGet 0); FBasic (BConst (VI32 1054764%Z)); FBasic (BGet 1); FCall 153; FEnd]; b_bad := false |};
    PCode {| b_locals := []; b_badlocals := false; b_ops := [FBlock false [] []; FBasic (BGet 2); FBasic (BConst (VI32 1114112%Z)); FBasic (BOp (SNum2 (B_irel W32 Ieq))); FBrIf 0; FBasic (BGet 0); FBasic (BGet 2); FBasic (BGet 1); FBasic (BOp (SLoad LI32 16%Z)); FCallInd 2 0; FBasic (BOp (SNum1 (U_eqz W32))); FBrIf 0; FBasic (BConst (VI32 1%Z)); FReturn; FEnd; FBlock false [] []; FBasic (BGet 3); FBrIf 0; FBasic (BConst (VI32 0%Z)); FReturn; FEnd; FBasic (BGet 0); FBasic (BGet 3); FBasic (BGet 4); FBasic (BGet 1); FBasic (BOp (SLoad LI32 12%Z)); FCallInd 5 0; FEnd]; b_bad := false |};
    PCode {| b_locals := []; b_badlocals := false; b_ops := [FBasic (BGet 0); FBasic (BOp (SLoad LI32 0%Z)); FBasic (BGet 1); FBasic (BGet 2); FBasic (BGet 0); FBasic (BOp (SLoad LI32 4%Z)); FBasic (BOp (SLoad LI32 12%Z)); FCallInd 5 0; FEnd]; b_bad := false |};
    PCode {| b_locals := []; b_badlocals := false; b_ops := [FBasic (BGet 1); FBasic (BOp (SLoad LI32 0%Z)); FBasic (BGet 2); FBasic (BGet 3); FBasic (BGet 1); FBasic (BOp (SLoad LI32 4%Z)); FBasic (BOp (SLoad LI32 12%Z)); FCallInd 5 0; FBasic (BSet 3); FBasic (BGet 0); FBasic (BConst (VI32 0%Z)); FBasic (BOp (SStore SI32_8 5%Z)); FBasic (BGet 0); FBasic (BGet 3); FBasic (BOp (SStore SI32_8 4%Z)); FBasic (BGet 0); FBasic (BGet 1); FBasic (BOp (SStore SI32 0%Z)); FEnd]; b_bad := false |};
    PCode {| b_locals := []; b_badlocals := false; b_ops := [FBlock false [] []; FBasic (BGet 0); FBasic (BOp (SLoad LI32_8u 0%Z)); FBrIf 0; FBasic (BGet 1); FBasic (BConst (VI32 1055034%Z)); FBasic (BConst (VI32 5%Z)); FCall 150; FReturn; FEnd; FBasic (BGet 1); FBasic (BConst (VI32 1055039%Z)); FBasic (BConst (VI32 4%Z)); FCall 150; FEnd]; b_bad := false |};
    PCode {| b_locals := [TI32; TI32; TI32; TI32; TI32; TI32; TI32; TI32; TI32; TI32; TI32; TI32; TI32; TI32; TI32]; b_badlocals := false; b_ops := [FBasic (BOp (SGlobalGet TI32 0)); FBasic (BConst (VI32 16%Z)); FBasic (BOp (SNum2 (B_int W32 Isub))); FBasic (BTee 3); FBasic (BOp (SGlobalSet TI32 0)); FBasic (BConst (VI32 1%Z)); FBasic (BSet 4); FBlock false [] []; FBasic (BGet 2); FBasic (BOp (SLoad LI32 0%Z)); FBasic (BTee 5); FBasic (BConst (VI32 34%Z)); FBasic (BGet 2); FBasic (BOp (SLoad LI32 4%Z)); FBasic (BTee 6); FBasic (BOp (SLoad LI32 16%Z)); FBasic (BTee 7); FCallInd 2 0; FBrIf 0; FBlock false [] []; FBlock false [] []; FBasic (BGet 1); FBrIf 0; FBasic (BConst (VI32 0%Z)); FBasic (BSet 8); FBasic (BConst (VI32 0%Z)); FBasic (BSet 2); FBr 1; FEnd; FBasic (BConst (VI32 0%Z)); FBasic (BSet 9); FBasic (BConst (VI32 0%Z)); FBasic (BGet 1); FBasic (BOp (SNum2 (B_int W32 Isub))); FBasic (BSet 10); FBasic (BConst (VI32 0%Z)); FBasic (BSet 8); FBasic (BGet 0); FBasic (BSet 11); FBasic (BGet 1); FBasic (BSet 12); FBlock false [] []; FBlock true [] []; FBasic (BGet 11); FBasic (BGet 12); FBasic (BOp (SNum2 (B_int W32 Iadd))); FBasic (BSet 13); FBasic (BConst (VI32 0%Z)); FBasic (BSet 2); FBlock false [] []; FBlock true [] []; FBasic (BGet 11); FBasic (BGet 2); FBasic (BOp (SNum2 (B_int W32 Iadd))); FBasic (BTee 14); FBasic (BOp (SLoad LI32_8u 0%Z)); FBasic (BTee 15); FBasic (BConst (VI32 (-127)%Z)); FBasic (BOp (SNum2 (B_int W32 Iadd))); FBasic (BConst (VI32 255%Z)); FBasic (BOp (SNum2 (B_int W32 Iand))); FBasic (BConst (VI32 161%Z)); FBasic (BOp (SNum2 (B_irel W32 Ilt_u))); FBrIf 1; FBasic (BGet 15); FBasic (BConst (VI32 34%Z)); FBasic (BOp (SNum2 (B_irel W32 Ieq))); FBrIf 1; FBasic (BGet 15); FBasic (BConst (VI32 92%Z)); FBasic (BOp (SNum2 (B_irel W32 Ieq))); FBrIf 1; FBasic (BGet 12); FBasic (BGet 2); FBasic (BConst (VI32 1%Z)); FBasic (BOp (SNum2 (B_int W32 Iadd))); FBasic (BTee 2); FBasic (BOp (SNum2 (B_irel W32 Ine))); FBrIf 0; FEnd; FBasic (BGet 8); FBasic (BGet 12); FBasic (BOp (SNum2 (B_int W32 Iadd))); FBasic (BSet 8); FBr 2; FEnd; FBasic (BGet 14); FBasic (BConst (VI32 1%Z)); FBasic (BOp (SNum2 (B_int W32 Iadd))); FBasic (BSet 11); FBasic (BGet 8); FBasic (BGet 2); FBasic (BOp (SNum2 (B_int W32 Iadd))); FBasic (BSet 12); FBlock false [] []; FBlock false [] []; FBlock false [] []; FBlock false [] []; FBasic (BGet 14); FBasic (BOp (SLoad LI32_8s 0%Z)); FBasic (BTee 15); FBasic (BConst (VI32 (-1)%Z)); FBasic (BOp (SNum2 (B_irel W32 Ile_s))); FBrIf 0; FBasic (BGet 15); FBasic (BConst (VI32 255%Z)); FBasic (BOp (SNum2 (B_int W32 Iand))); FBasic (BSet 15); FBr 1; FEnd; FBasic (BGet 11); FBasic (BOp (SLoad LI32_8u 0%Z)); FBasic (BConst (VI32 63%Z)); FBasic (BOp (SNum2 (B_int W32 Iand))); FBasic (BSet 16); FBasic (BGet 15); FBasic (BConst (VI32 31%Z)); FBasic (BOp (SNum2 (B_int W32 Iand))); FBasic (BSet 17); FBasic (BGet 14); FBasic (BConst (VI32 2%Z)); FBasic (BOp (SNum2 (B_int W32 Iadd))); FBasic (BSet 11); FBlock false [] []; FBasic (BGet 15); FBasic (BConst (VI32 (-33)%Z)); FBasic (BOp (SNum2 (B_irel W32 Igt_u))); FBrIf 0; FBasic (BGet 17); FBasic (BConst (VI32 6%Z)); FBasic (BOp (SNum2 (B_int W32 Ishl))); FBasic (BGet 16); FBasic (BOp (SNum2 (B_int W32 Ior))); FBasic (BSet 15); FBr 1; FEnd; FBasic (BGet 16); FBasic (BConst (VI32 6%Z)); FBasic (BOp (SNum2 (B_int W32 Ishl))); FBasic (BGet 11); FBasic (BOp (SLoad LI32_8u 0%Z)); FBasic (BConst (VI32 63%Z)); FBasic (BOp (SNum2 (B_int W32 Iand))); FBasic (BOp (SNum2 (B_int W32 Ior))); FBasic (BSet 16); FBasic (BGet 14); FBasic (BConst (VI32 3%Z)); FBasic (BOp (SNum2 (B_int W32 Iadd))); FBasic (BSet 11); FBlock false [] []; FBasic (BGet 15); FBasic (BConst (VI32 (-16)%Z)); FBasic (BOp (SNum2 (B_irel W32 Ige_u))); FBrIf 0; FBasic (BGet 16); FBasic (BGet 17); FBasic (BConst (VI32 12%Z)); FBasic (BOp (SNum2 (B_int W32 Ishl))); FBasic (BOp (SNum2 (B_int W32 Ior))); FBasic (BSet 15); FBr 1; FEnd; FBasic (BGet 11); FBasic (BOp (SLoad LI32_8u 0%Z)); FBasic (BSet 15); FBasic (BGet 14); FBasic (BConst (VI32 4%Z)); FBasic (BOp (SNum2 (B_int W32 Iadd))); FBasic (BSet 11); FBasic (BGet 16); FBasic (BConst (VI32 6%Z)); FBasic (BOp (SNum2 (B_int W32 Ishl))); FBasic (BGet 15); FBasic (BConst (VI32 63%Z)); FBasic (BOp (SNum2 (B_int W32 Iand))); FBasic (BOp (SNum2 (B_int W32 Ior))); FBasic (BGet 17); FBasic (BConst (VI32 18%Z)); FBasic (BOp (SNum2 (B_int W32 Ishl))); FBasic (BConst (VI32 1835008%Z)); FBasic (BOp (SNum2 (B_int W32 Iand))); FBasic (BOp (SNum2 (B_int W32 Ior))); FBasic (BTee 15); FBasic (BConst (VI32 1114112%Z)); FBasic (BOp (SNum2 (B_irel W32 Ine))); FBrIf 0; FBasic (BGet 12); FBasic (BSet 8); FBr 1; FEnd; FBasic (BGet 3); FBasic (BConst (VI32 4%Z)); FBasic (BOp (SNum2 (B_int W32 Iadd))); FBasic (BGet 15); FBasic (BConst (VI32 65537%Z)); FCall 157; FBlock false [] []; FBasic (BGet 3); FBasic (BOp (SLoad LI32_8u 4%Z)); FBasic (BConst (VI32 128%Z)); FBasic (BOp (SNum2 (B_irel W32 Ieq))); FBrIf 0; FBasic (BGet 3); FBasic (BOp (SLoad LI32_8u 15%Z)); FBasic (BGet 3); FBasic (BOp (SLoad LI32_8u 14%Z)); FBasic (BOp (SNum2 (B_int W32 Isub))); FBasic (BConst (VI32 255%Z)); FBasic (BOp (SNum2 (B_int W32 Iand))); FBasic (BConst (VI32 1%Z)); FBasic (BOp (SNum2 (B_irel W32 Ieq))); FBrIf 0; FBlock false [] []; FBlock false [] []; FBasic (BGet 9); FBasic (BGet 12); FBasic (BOp (SNum2 (B_irel W32 Igt_u))); FBrIf 0; FBlock false [] []; FBasic (BGet 9); FBasic (BOp (SNum1 (U_eqz W32))); FBrIf 0; FBlock false [] []; FBasic (BGet 9); FBasic (BGet 1); FBasic (BOp (SNum2 (B_irel W32 Ilt_u))); FBrIf 0; FBasic (BGet 9); FBasic (BGet 1); FBasic (BOp (SNum2 (B_irel W32 Ine))); FBrIf 2; FBr 1; FEnd; FBasic (BGet 0); FBasic (BGet 9); FBasic (BOp (SNum2 (B_int W32 Iadd))); FBasic (BOp (SLoad LI32_8s 0%Z)); FBasic (BConst (VI32 (-65)%Z)); FBasic (BOp (SNum2 (B_irel W32 Ile_s))); FBrIf 1; FEnd; FBlock false [] []; FBasic (BGet 12); FBasic (BOp (SNum1 (U_eqz W32))); FBrIf 0; FBlock false [] []; FBasic (BGet 12); FBasic (BGet 1); FBasic (BOp (SNum2 (B_irel W32 Ilt_u))); FBrIf 0; FBasic (BGet 12); FBasic (BGet 10); FBasic (BOp (SNum2 (B_int W32 Iadd))); FBasic (BOp (SNum1 (U_eqz W32))); FBrIf 1; FBr 2; FEnd; FBasic (BGet 0); FBasic (BGet 8); FBasic (BOp (SNum2 (B_int W32 Iadd))); FBasic (BGet 2); FBasic (BOp (SNum2 (B_int W32 Iadd))); FBasic (BOp (SLoad LI32_8s 0%Z)); FBasic (BConst (VI32 (-64)%Z)); FBasic (BOp (SNum2 (B_irel W32 Ilt_s))); FBrIf 1; FEnd; FBasic (BGet 5); FBasic (BGet 0); FBasic (BGet 9); FBasic (BOp (SNum2 (B_int W32 Iadd))); FBasic (BGet 8); FBasic (BGet 9); FBasic (BOp (SNum2 (B_int W32 Isub))); FBasic (BGet 2); FBasic (BOp (SNum2 (B_int W32 Iadd))); FBasic (BGet 6); FBasic (BOp (SLoad LI32 12%Z)); FBasic (BTee 14); FCallInd 5 0; FBasic (BOp (SNum1 (U_eqz W32))); FBrIf 1; FBr 4; FEnd; FBasic (BGet 0); FBasic (BGet 1); FBasic (BGet 9); FBasic (BGet 8); FBasic (BGet 2); FBasic (BOp (SNum2 (B_int W32 Iadd))); FBasic (BConst (VI32 1055044%Z)); FCall 186; FUnreachable; FEnd; FBlock false [] []; FBlock false [] []; FBasic (BGet 3); FBasic (BOp (SLoad LI32_8u 4%Z)); FBasic (BConst (VI32 128%Z)); FBasic (BOp (SNum2 (B_irel W32 Ine))); FBrIf 0; FBasic (BGet 5); FBasic (BGet 3); FBasic (BOp (SLoad LI32 8%Z)); FBasic (BGet 7); FCallInd 2 0; FBrIf 4; FBr 1; FEnd; FBasic (BGet 5); FBasic (BGet 3); FBasic (BConst (VI32 4%Z)); FBasic (BOp (SNum2 (B_int W32 Iadd))); FBasic (BGet 3); FBasic (BOp (SLoad LI32_8u 14%Z)); FBasic (BTee 12); FBasic (BOp (SNum2 (B_int W32 Iadd))); FBasic (BGet 3); FBasic (BOp (SLoad LI32_8u 15%Z)); FBasic (BGet 12); FBasic (BOp (SNum2 (B_int W32 Isub))); FBasic (BGet 14); FCallInd 5 0; FBrIf 3; FEnd; FBlock false [] []; FBlock false [] []; FBasic (BGet 15); FBasic (BConst (VI32 128%Z)); FBasic (BOp (SNum2 (B_irel W32 Ige_u))); FBrIf 0; FBasic (BConst (VI32 1%Z)); FBasic (BSet 14); FBr 1; FEnd; FBlock false [] []; FBasic (BGet 15); FBasic (BConst (VI32 2048%Z)); FBasic (BOp (SNum2 (B_irel W32 Ige_u))); FBrIf 0; FBasic (BConst (VI32 2%Z)); FBasic (BSet 14); FBr 1; FEnd; FBasic (BConst (VI32 3%Z)); FBasic (BConst (VI32 4%Z)); FBasic (BGet 15); FBasic (BConst (VI32 65536%Z)); FBasic (BOp (SNum2 (B_irel W32 Ilt_u))); FBasic (BSelect None); FBasic (BSet 14); FEnd; FBasic (BGet 14); FBasic (BGet 8); FBasic (BOp (SNum2 (B_int W32 Iadd))); FBasic (BGet 2); FBasic (BOp (SNum2 (B_int W32 Iadd))); FBasic (BSet 9); FEnd; FBlock false [] []; FBlock false [] []; FBasic (BGet 15); FBasic (BConst (VI32 128%Z)); FBasic (BOp (SNum2 (B_irel W32 Ige_u))); FBrIf 0; FBasic (BConst (VI32 1%Z)); FBasic (BSet 15); FBr 1; FEnd; FBlock false [] []; FBasic (BGet 15); FBasic (BConst (VI32 2048%Z)); FBasic (BOp (SNum2 (B_irel W32 Ige_u))); FBrIf 0; FBasic (BConst (VI32 2%Z)); FBasic (BSet 15); FBr 1; FEnd; FBasic (BConst (VI32 3%Z)); FBasic (BConst (VI32 4%Z)); FBasic (BGet 15); FBasic (BConst (VI32 65536%Z)); FBasic (BOp (SNum2 (B_irel W32 Ilt_u))); FBasic (BSelect None); FBasic (BSet 15); FEnd; FBasic (BGet 15); FBasic (BGet 8); FBasic (BOp (SNum2 (B_int W32 Iadd))); FBasic (BGet 2); FBasic (BOp (SNum2 (B_int W32 Iadd))); FBasic (BSet 8); FEnd; FBasic (BGet 13); FBasic (BGet 11); FBasic (BOp (SNum2 (B_int W32 Isub))); FBasic (BTee 12); FBrIf 1; FBr 2; FEnd; FEnd; FBasic (BConst (VI32 1%Z)); FBasic (BSet 4); FBr 2; FEnd; FBlock false [] []; FBasic (BGet 9); FBasic (BGet 8); FBasic (BOp (SNum2 (B_irel W32 Igt_u))); FBrIf 0; FBasic (BConst (VI32 0%Z)); FBasic (BSet 2); FBlock false [] []; FBasic (BGet 9); FBasic (BOp (SNum1 (U_eqz W32))); FBrIf 0; FBlock false [] []; FBasic (BGet 9); FBasic (BGet 1); FBasic (BOp (SNum2 (B_irel W32 Ilt_u))); FBrIf 0; FBasic (BGet 9); FBasic (BSet 2); FBasic (BGet 9); FBasic (BGet 1); FBasic (BOp (SNum2 (B_irel W32 Ine))); FBrIf 2; FBr 1; FEnd; FBasic (BGet 9); FBasic (BSet 2); FBasic (BGet 0); FBasic (BGet 9); FBasic (BOp (SNum2 (B_int W32 Iadd))); FBasic (BOp (SLoad LI32_8s 0%Z)); FBasic (BConst (VI32 (-65)%Z)); FBasic (BOp (SNum2 (B_irel W32 Ile_s))); FBrIf 1; FEnd; FBlock false [] []; FBasic (BGet 8); FBrIf 0; FBasic (BConst (VI32 0%Z)); FBasic (BSet 8); FBr 2; FEnd; FBlock false [] []; FBasic (BGet 8); FBasic (BGet 1); FBasic (BOp (SNum2 (B_irel W32 Ilt_u))); FBrIf 0; FBasic (BGet 8); FBasic (BGet 1); FBasic (BOp (SNum2 (B_irel W32 Ieq))); FBrIf 2; FBasic (BGet 2); FBasic (BSet 9); FBr 1; FEnd; FBasic (BGet 0); FBasic (BGet 8); FBasic (BOp (SNum2 (B_int W32 Iadd))); FBasic (BOp (SLoad LI32_8s 0%Z)); FBasic (BConst (VI32 (-65)%Z)); FBasic (BOp (SNum2 (B_irel W32 Igt_s))); FBrIf 1; FBasic (BGet 2); FBasic (BSet 9); FEnd; FBasic (BGet 0); FBasic (BGet 1); FBasic (BGet 9); FBasic (BGet 8); FBasic (BConst (VI32 1055060%Z)); FCall 186; FUnreachable; FEnd; FBasic (BGet 5); FBasic (BGet 0); FBasic (BGet 2); FBasic (BOp (SNum2 (B_int W32 Iadd))); FBasic (BGet 8); FBasic (BGet 2); FBasic (BOp (SNum2 (B_int W32 Isub))); FBasic (BGet 6); FBasic (BOp (SLoad LI32 12%Z)); FCallInd 5 0; FBrIf 0; FBasic (BGet 5); FBasic (BConst (VI32 34%Z)); FBasic (BGet 7); FCallInd 2 0; FBasic (BSet 4); FEnd; FBasic (BGet 3); FBasic (BConst (VI32 16%Z)); FBasic (BOp (SNum2 (B_int W32 Iadd))); FBasic (BOp (SGlobalSet TI32 0)); FBasic (BGet 4); FEnd]; b_bad := false |};
    PCode {| b_locals := []; b_badlocals := false; b_ops := [FBasic (BGet 0); FBasic (BGet 1); FBasic (BGet 2); FBasic (BGet 3); FBasic (BGet 4); FCall 193; FUnreachable; FEnd]; b_bad := false |};
    PCode {| b_locals := []; b_badlocals := false; b_ops := [FBasic (BGet 2); FBasic (BGet 0); FBasic (BGet 1); FCall 150; FEnd]; b_bad := false |};
    PCode {| b_locals := [TI32; TI32; TI32; TI32]; b_badlocals := false; b_ops := [FBasic (BOp (SGlobalGet TI32 0)); FBasic (BConst (VI32 16%Z)); FBasic (BOp (SNum2 (B_int W32 Isub))); FBasic (BTee 2); FBasic (BOp (SGlobalSet TI32 0)); FBasic (BConst (VI32 1%Z)); FBasic (BSet 3); FBlock false [] []; FBasic (BGet 1); FBasic (BOp (SLoad LI32 0%Z)); FBasic (BTee 4); FBasic (BConst (VI32 39%Z)); FBasic (BGet 1); FBasic (BOp (SLoad LI32 4%Z)); FBasic (BTee 5); FBasic (BOp (SLoad LI32 16%Z)); FBasic (BTee 1); FCallInd 2 0; FBrIf 0; FBasic (BGet 2); FBasic (BConst (VI32 4%Z)); FBasic (BOp (SNum2 (B_int W32 Iadd))); FBasic (BGet 0); FBasic (BOp (SLoad LI32 0%Z)); FBasic (BConst (VI32 257%Z)); FCall 157; FBlock false [] []; FBlock false [] []; FBasic (BGet 2); FBasic (BOp (SLoad LI32_8u 4%Z)); FBasic (BConst (VI32 128%Z)); FBasic (BOp (SNum2 (B_irel W32 Ine))); FBrIf 0; FBasic (BGet 4); FBasic (BGet 2); FBasic (BOp (SLoad LI32 8%Z)); FBasic (BGet 1); FCallInd 2 0; FBasic (BOp (SNum1 (U_eqz W32))); FBrIf 1; FBasic (BConst (VI32 1%Z)); FBasic (BSet 3); FBr 2; FEnd; FBasic (BGet 4); FBasic (BGet 2); FBasic (BConst (VI32 4%Z)); FBasic (BOp (SNum2 (B_int W32 Iadd))); FBasic (BGet 2); FBasic (BOp (SLoad LI32_8u 14%Z)); FBasic (BTee 3); FBasic (BOp (SNum2 (B_int W32 Iadd))); FBasic (BGet 2); FBasic (BOp (SLoad LI32_8u 15%Z)); FBasic (BGet 3); FBasic (BOp (SNum2 (B_int W32 Isub))); FBasic (BGet 5); FBasic (BOp (SLoad LI32 12%Z)); FCallInd 5 0; FBasic (BOp (SNum1 (U_eqz W32))); FBrIf 0; FBasic (BConst (VI32 1%Z)); FBasic (BSet 3); FBr 1; FEnd; FBasic (BGet 4); FBasic (BConst (VI32 39%Z)); FBasic (BGet 1); FCallInd 2 0; FBasic (BSet 3); FEnd; FBasic (BGet 2); FBasic (BConst (VI32 16%Z)); FBasic (BOp (SNum2 (B_int W32 Iadd))); FBasic (BOp (SGlobalSet TI32 0)); FBasic (BGet 3); FEnd]; b_bad := false |};
    PCode {| b_locals := [TI32; TI32; TI32; TI32; TI32]; b_badlocals := false; b_ops := [FBlock false [] []; FBlock false [] []; FBlock false [] []; FBlock false [] []; FBasic (BGet 2); FBasic (BConst (VI32 3%Z)); FBasic (BOp (SNum2 (B_int W32 Iadd))); FBasic (BConst (VI32 (-4)%Z)); FBasic (BOp (SNum2 (B_int W32 Iand))); FBasic (BTee 4); FBasic (BGet 2); FBasic (BOp (SNum2 (B_irel W32 Ieq))); FBrIf 0; FBasic (BGet 3); FBasic (BGet 4); FBasic (BGet 2); FBasic (BOp (SNum2 (B_int W32 Isub))); FBasic (BTee 4); FBasic (BGet 3); FBasic (BGet 4); FBasic (BOp (SNum2 (B_irel W32 Ilt_u))); FBasic (BSelect None); FBasic (BTee 4); FBasic (BOp (SNum1 (U_eqz W32))); FBrIf 0; FBasic (BConst (VI32 0%Z)); FBasic (BSet 5); FBasic (BGet 1); FBasic (BConst (VI32 255%Z)); FBasic (BOp (SNum2 (B_int W32 Iand))); FBasic (BSet 6); FBasic (BConst (VI32 1%Z)); FBasic (BSet 7); FBlock true [] []; FBasic (BGet 2); FBasic (BGet 5); FBasic (BOp (SNum2 (B_int W32 Iadd))); FBasic (BOp (SLoad LI32_8u 0%Z)); FBasic (BGet 6); FBasic (BOp (SNum2 (B_irel W32 Ieq))); FBrIf 4; FBasic (BGet 4); FBasic (BGet 5); FBasic (BConst (VI32 1%Z)); FBasic (BOp (SNum2 (B_int W32 Iadd))); FBasic (BTee 5); FBasic (BOp (SNum2 (B_irel W32 Ine))); FBrIf 0; FEnd; FBasic (BGet 4); FBasic (BGet 3); FBasic (BConst (VI32 (-8)%Z)); FBasic (BOp (SNum2 (B_int W32 Iadd))); FBasic (BTee 8); FBasic (BOp (SNum2 (B_irel W32 Igt_u))); FBrIf 2; FBr 1; FEnd; FBasic (BGet 3); FBasic (BConst (VI32 (-8)%Z)); FBasic (BOp (SNum2 (B_int W32 Iadd))); FBasic (BSet 8); FBasic (BConst (VI32 0%Z)); FBasic (BSet 4); FEnd; FBasic (BGet 1); FBasic (BConst (VI32 255%Z)); FBasic (BOp (SNum2 (B_int W32 Iand))); FBasic (BConst (VI32 16843009%Z)); FBasic (BOp (SNum2 (B_int W32 Imul))); FBasic (BSet 5); FBlock true [] []; FBasic (BConst (VI32 16843008%Z)); FBasic (BGet 2); FBasic (BGet 4); FBasic (BOp (SNum2 (B_int W32 Iadd))); FBasic (BTee 6); FBasic (BOp (SLoad LI32 0%Z)); FBasic (BGet 5); FBasic (BOp (SNum2 (B_int W32 Ixor))); FBasic (BTee 7); FBasic (BOp (SNum2 (B_int W32 Isub))); FBasic (BGet 7); FBasic (BOp (SNum2 (B_int W32 Ior))); FBasic (BConst (VI32 16843008%Z)); FBasic (BGet 6); FBasic (BConst (VI32 4%Z)); FBasic (BOp (SNum2 (B_int W32 Iadd))); FBasic (BOp (SLoad LI32 0%Z)); FBasic (BGet 5); FBasic (BOp (SNum2 (B_int W32 Ixor))); FBasic (BTee 6); FBasic (BOp (SNum2 (B_int W32 Isub))); FBasic (BGet 6); FBasic (BOp (SNum2 (B_int W32 Ior))); FBasic (BOp (SNum2 (B_int W32 Iand))); FBasic (BConst (VI32 (-2139062144)%Z)); FBasic (BOp (SNum2 (B_int W32 Iand))); FBasic (BConst (VI32 (-2139062144)%Z)); FBasic (BOp (SNum2 (B_irel W32 Ine))); FBrIf 1; FBasic (BGet 4); FBasic (BConst (VI32 8%Z)); FBasic (BOp (SNum2 (B_int W32 Iadd))); FBasic (BTee 4); FBasic (BGet 8); FBasic (BOp (SNum2 (B_irel W32 Ile_u))); FBrIf 0; FEnd; FEnd; FBlock false [] []; FBasic (BGet 3); FBasic (BGet 4); FBasic (BOp (SNum2 (B_irel W32 Ieq))); FBrIf 0; FBasic (BGet 1); FBasic (BConst (VI32 255%Z)); FBasic (BOp (SNum2 (B_int W32 Iand))); FBasic (BSet 5); FBasic (BConst (VI32 1%Z)); FBasic (BSet 7); FBlock true [] []; FBlock false [] []; FBasic (BGet 2); FBasic (BGet 4); FBasic (BOp (SNum2 (B_int W32 Iadd))); FBasic (BOp (SLoad LI32_8u 0%Z)); FBasic (BGet 5); FBasic (BOp (SNum2 (B_irel W32 Ine))); FBrIf 0; FBasic (BGet 4); FBasic (BSet 5); FBr 3; FEnd; FBasic (BGet 3); FBasic (BGet 4); FBasic (BConst (VI32 1%Z)); FBasic (BOp (SNum2 (B_int W32 Iadd))); FBasic (BTee 4); FBasic (BOp (SNum2 (B_irel W32 Ine))); FBrIf 0; FEnd; FEnd; FBasic (BConst (VI32 0%Z)); FBasic (BSet 7); FEnd; FBasic (BGet 0); FBasic (BGet 5); FBasic (BOp (SStore SI32 4%Z)); FBasic (BGet 0); FBasic (BGet 7); FBasic (BOp (SStore SI32 0%Z)); FEnd]; b_bad := false |};
    PCode {| b_locals := [TI32; TI64]; b_badlocals := false; b_ops := [FBasic (BOp (SGlobalGet TI32 0)); FBasic (BConst (VI32 48%Z)); FBasic (BOp (SNum2 (B_int W32 Isub))); FBasic (BTee 3); FBasic (BOp (SGlobalSet TI32 0)); FBasic (BGet 3); FBasic (BGet 1); FBasic (BOp (SStore SI32 4%Z)); FBasic (BGet 3); FBasic (BGet 0); FBasic (BOp (SStore SI32 0%Z)); FBasic (BGet 3); FBasic (BConst (VI32 2%Z)); FBasic (BOp (SStore SI32 12%Z)); FBasic (BGet 3); FBasic (BConst (VI32 1056920%Z)); FBasic (BOp (SStore SI32 8%Z)); FBasic (BGet 3); FBasic (BConst (VI64 2%Z)); FBasic (BOp (SStore SI64 20%Z)); FBasic (BGet 3); FBasic (BConst (VI32 8%Z)); FBasic (BOp (SCvt (C_ext Ux))); FBasic (BConst (VI64 32%Z)); FBasic (BOp (SNum2 (B_int W64 Ishl))); FBasic (BTee 4); FBasic (BGet 3); FBasic (BConst (VI32 4%Z)); FBasic (BOp (SNum2 (B_int W32 Iadd))); FBasic (BOp (SCvt (C_ext Ux))); FBasic (BOp (SNum2 (B_int W64 Ior))); FBasic (BOp (SStore SI64 40%Z)); FBasic (BGet 3); FBasic (BGet 4); FBasic (BGet 3); FBasic (BOp (SCvt (C_ext Ux))); FBasic (BOp (SNum2 (B_int W64 Ior))); FBasic (BOp (SStore SI64 32%Z)); FBasic (BGet 3); FBasic (BGet 3); FBasic (BConst (VI32 32%Z)); FBasic (BOp (SNum2 (B_int W32 Iadd))); FBasic (BOp (SStore SI32 16%Z)); FBasic (BGet 3); FBasic (BConst (VI32 8%Z)); FBasic (BOp (SNum2 (B_int W32 Iadd))); FBasic (BGet 2); FCall 152; FUnreachable; FEnd]; b_bad := false |};
    PCode {| b_locals := [TI32; TI64]; b_badlocals := false; b_ops := [FBasic (BOp (SGlobalGet TI32 0)); FBasic (BConst (VI32 48%Z)); FBasic (BOp (SNum2 (B_int W32 Isub))); FBasic (BTee 3); FBasic (BOp (SGlobalSet TI32 0)); FBasic (BGet 3); FBasic (BGet 1); FBasic (BOp (SStore SI32 4%Z)); FBasic (BGet 3); FBasic (BGet 0); FBasic (BOp (SStore SI32 0%Z)); FBasic (BGet 3); FBasic (BConst (VI32 2%Z)); FBasic (BOp (SStore SI32 12%Z)); FBasic (BGet 3); FBasic (BConst (VI32 1056952%Z)); FBasic (BOp (SStore SI32 8%Z)); FBasic (BGet 3); FBasic (BConst (VI64 2%Z)); FBasic (BOp (SStore SI64 20%Z)); FBasic (BGet 3); FBasic (BConst (VI32 8%Z)); FBasic (BOp (SCvt (C_ext Ux))); FBasic (BConst (VI64 32%Z)); FBasic (BOp (SNum2 (B_int W64 Ishl))); FBasic (BTee 4); FBasic (BGet 3); FBasic (BConst (VI32 4%Z)); FBasic (BOp (SNum2 (B_int W32 Iadd))); FBasic (BOp (SCvt (C_ext Ux))); FBasic (BOp (SNum2 (B_int W64 Ior))); FBasic (BOp (SStore SI64 40%Z)); FBasic (BGet 3); FBasic (BGet 4); FBasic (BGet 3); FBasic (BOp (SCvt (C_ext Ux))); FBasic (BOp (SNum2 (B_int W64 Ior))); FBasic (BOp (SStore SI64 32%Z)); FBasic (BGet 3); FBasic (BGet 3); FBasic (BConst (VI32 32%Z)); FBasic (BOp (SNum2 (B_int W32 Iadd))); FBasic (BOp (SStore SI32 16%Z)); FBasic (BGet 3); FBasic (BConst (VI32 8%Z)); FBasic (BOp (SNum2 (B_int W32 Iadd))); FBasic (BGet 2); FCall 152; FUnreachable; FEnd]; b_bad := false |};
    PCode {| b_locals := [TI32; TI64]; b_badlocals := false; b_ops := [FBasic (BOp (SGlobalGet TI32 0)); FBasic (BConst (VI32 48%Z)); FBasic (BOp (SNum2 (B_int W32 Isub))); FBasic (BTee 3); FBasic (BOp (SGlobalSet TI32 0)); FBasic (BGet 3); FBasic (BGet 1); FBasic (BOp (SStore SI32 4%Z)); FBasic (BGet 3); FBasic (BGet 0); FBasic (BOp (SStore SI32 0%Z)); FBasic (BGet 3); FBasic (BConst (VI32 2%Z)); FBasic (BOp (SStore SI32 12%Z)); FBasic (BGet 3); FBasic (BConst (VI32 1057004%Z)); FBasic (BOp (SStore SI32 8%Z)); FBasic (BGet 3); FBasic (BConst (VI64 2%Z)); FBasic (BOp (SStore SI64 20%Z)); FBasic (BGet 3); FBasic (BConst (VI32 8%Z)); FBasic (BOp (SCvt (C_ext Ux))); FBasic (BConst (VI64 32%Z)); FBasic (BOp (SNum2 (B_int W64 Ishl))); FBasic (BTee 4); FBasic (BGet 3); FBasic (BConst (VI32 4%Z)); FBasic (BOp (SNum2 (B_int W32 Iadd))); FBasic (BOp (SCvt (C_ext Ux))); FBasic (BOp (SNum2 (B_int W64 Ior))); FBasic (BOp (SStore SI64 40%Z)); FBasic (BGet 3); FBasic (BGet 4); FBasic (BGet 3); FBasic (BOp (SCvt (C_ext Ux))); FBasic (BOp (SNum2 (B_int W64 Ior))); FBasic (BOp (SStore SI64 32%Z)); FBasic (BGet 3); FBasic (BGet 3); FBasic (BConst (VI32 32%Z)); FBasic (BOp (SNum2 (B_int W32 Iadd))); FBasic (BOp (SStore SI32 16%Z)); FBasic (BGet 3); FBasic (BConst (VI32 8%Z)); FBasic (BOp (SNum2 (B_int W32 Iadd))); FBasic (BGet 2); FCall 152; FUnreachable; FEnd]; b_bad := false |};
    PCode {| b_locals := [TI32; TI32; TI32; TI32; TI64]; b_badlocals := false; b_ops := [FBasic (BOp (SGlobalGet TI32 0)); FBasic (BConst (VI32 112%Z)); FBasic (BOp (SNum2 (B_int W32 Isub))); FBasic (BTee 5); FBasic (BOp (SGlobalSet TI32 0)); FBasic (BGet 5); FBasic (BGet 3); FBasic (BOp (SStore SI32 12%Z)); FBasic (BGet 5); FBasic (BGet 2); FBasic (BOp (SStore SI32 8%Z)); FBlock false [] []; FBlock false [] []; FBasic (BGet 1); FBasic (BConst (VI32 257%Z)); FBasic (BOp (SNum2 (B_irel W32 Ilt_u))); FBrIf 0; FBlock false [] []; FBlock false [] []; FBasic (BGet 0); FBasic (BOp (SLoad LI32_8s 256%Z)); FBasic (BConst (VI32 (-65)%Z)); FBasic (BOp (SNum2 (B_irel W32 Ile_s))); FBrIf 0; FBasic (BConst (VI32 256%Z)); FBasic (BSet 6); FBr 1; FEnd; FBlock false [] []; FBasic (BGet 0); FBasic (BOp (SLoad LI32_8s 255%Z)); FBasic (BConst (VI32 (-65)%Z)); FBasic (BOp (SNum2 (B_irel W32 Ile_s))); FBrIf 0; FBasic (BConst (VI32 255%Z)); FBasic (BSet 6); FBr 1; FEnd; FBasic (BConst (VI32 254%Z)); FBasic (BConst (VI32 253%Z)); FBasic (BGet 0); FBasic (BOp (SLoad LI32_8s 254%Z)); FBasic (BConst (VI32 (-65)%Z)); FBasic (BOp (SNum2 (B_irel W32 Igt_s))); FBasic (BSelect None); FBasic (BSet 6); FEnd; FBlock false [] []; FBasic (BGet 0); FBasic (BGet 6); FBasic (BOp (SNum2 (B_int W32 Iadd))); FBasic (BOp (SLoad LI32_8s 0%Z)); FBasic (BConst (VI32 (-65)%Z)); FBasic (BOp (SNum2 (B_irel W32 Ile_s))); FBrIf 0; FBasic (BConst (VI32 5%Z)); FBasic (BSet 7); FBasic (BConst (VI32 1055103%Z)); FBasic (BSet 8); FBr 2; FEnd; FBasic (BGet 0); FBasic (BGet 1); FBasic (BConst (VI32 0%Z)); FBasic (BGet 6); FBasic (BGet 4); FCall 186; FUnreachable; FEnd; FBasic (BConst (VI32 0%Z)); FBasic (BSet 7); FBasic (BConst (VI32 1%Z)); FBasic (BSet 8); FBasic (BGet 1); FBasic (BSet 6); FEnd; FBasic (BGet 5); FBasic (BGet 6); FBasic (BOp (SStore SI32 20%Z)); FBasic (BGet 5); FBasic (BGet 0); FBasic (BOp (SStore SI32 16%Z)); FBasic (BGet 5); FBasic (BGet 7); FBasic (BOp (SStore SI32 28%Z)); FBasic (BGet 5); FBasic (BGet 8); FBasic (BOp (SStore SI32 24%Z)); FBlock false [] []; FBlock false [] []; FBlock false [] []; FBlock false [] []; FBasic (BGet 2); FBasic (BGet 1); FBasic (BOp (SNum2 (B_irel W32 Igt_u))); FBasic (BTee 6); FBrIf 0; FBasic (BGet 3); FBasic (BGet 1); FBasic (BOp (SNum2 (B_irel W32 Igt_u))); FBrIf 0; FBasic (BGet 2); FBasic (BGet 3); FBasic (BOp (SNum2 (B_irel W32 Igt_u))); FBrIf 1; FBlock false [] []; FBasic (BGet 2); FBasic (BOp (SNum1 (U_eqz W32))); FBrIf 0; FBasic (BGet 2); FBasic (BGet 1); FBasic (BOp (SNum2 (B_irel W32 Ige_u))); FBrIf 0; FBasic (BGet 5); FBasic (BConst (VI32 12%Z)); FBasic (BOp (SNum2 (B_int W32 Iadd))); FBasic (BGet 5); FBasic (BConst (VI32 8%Z)); FBasic (BOp (SNum2 (B_int W32 Iadd))); FBasic (BGet 0); FBasic (BGet 2); FBasic (BOp (SNum2 (B_int W32 Iadd))); FBasic (BOp (SLoad LI32_8s 0%Z)); FBasic (BConst (VI32 (-65)%Z)); FBasic (BOp (SNum2 (B_irel W32 Igt_s))); FBasic (BSelect None); FBasic (BOp (SLoad LI32 0%Z)); FBasic (BSet 3); FEnd; FBasic (BGet 5); FBasic (BGet 3); FBasic (BOp (SStore SI32 32%Z)); FBasic (BGet 1); FBasic (BSet 2); FBlock false [] []; FBasic (BGet 3); FBasic (BGet 1); FBasic (BOp (SNum2 (B_irel W32 Ige_u))); FBrIf 0; FBasic (BGet 3); FBasic (BConst (VI32 1%Z)); FBasic (BOp (SNum2 (B_int W32 Iadd))); FBasic (BTee 6); FBasic (BConst (VI32 0%Z)); FBasic (BGet 3); FBasic (BConst (VI32 (-3)%Z)); FBasic (BOp (SNum2 (B_int W32 Iadd))); FBasic (BTee 2); FBasic (BGet 2); FBasic (BGet 3); FBasic (BOp (SNum2 (B_irel W32 Igt_u))); FBasic (BSelect None); FBasic (BTee 2); FBasic (BOp (SNum2 (B_irel W32 Ilt_u))); FBrIf 3; FBasic (BGet 6); FBasic (BGet 2); FBasic (BOp (SNum2 (B_int W32 Isub))); FBasic (BSet 7); FBlock false [] []; FBlock false [] []; FBasic (BGet 0); FBasic (BGet 3); FBasic (BOp (SNum2 (B_int W32 Iadd))); FBasic (BOp (SLoad LI32_8s 0%Z)); FBasic (BConst (VI32 (-65)%Z)); FBasic (BOp (SNum2 (B_irel W32 Ile_s))); FBrIf 0; FBasic (BGet 7); FBasic (BConst (VI32 (-1)%Z)); FBasic (BOp (SNum2 (B_int W32 Iadd))); FBasic (BSet 3); FBr 1; FEnd; FBlock false [] []; FBasic (BGet 0); FBasic (BGet 6); FBasic (BOp (SNum2 (B_int W32 Iadd))); FBasic (BTee 3); FBasic (BConst (VI32 (-2)%Z)); FBasic (BOp (SNum2 (B_int W32 Iadd))); FBasic (BOp (SLoad LI32_8s 0%Z)); FBasic (BConst (VI32 (-65)%Z)); FBasic (BOp (SNum2 (B_irel W32 Ile_s))); FBrIf 0; FBasic (BGet 7); FBasic (BConst (VI32 (-2)%Z)); FBasic (BOp (SNum2 (B_int W32 Iadd))); FBasic (BSet 3); FBr 1; FEnd; FBlock false [] []; FBasic (BGet 3); FBasic (BConst (VI32 (-3)%Z)); FBasic (BOp (SNum2 (B_int W32 Iadd))); FBasic (BOp (SLoad LI32_8s 0%Z)); FBasic (BConst (VI32 (-65)%Z)); FBasic (BOp (SNum2 (B_irel W32 Ile_s))); FBrIf 0; FBasic (BGet 7); FBasic (BConst (VI32 (-3)%Z)); FBasic (BOp (SNum2 (B_int W32 Iadd))); FBasic (BSet 3); FBr 1; FEnd; FBasic (BGet 7); FBasic (BConst (VI32 (-4)%Z)); FBasic (BConst (VI32 (-5)%Z)); FBasic (BGet 3); FBasic (BConst (VI32 (-4)%Z)); FBasic (BOp (SNum2 (B_int W32 Iadd))); FBasic (BOp (SLoad LI32_8s 0%Z)); FBasic (BConst (VI32 (-65)%Z)); FBasic (BOp (SNum2 (B_irel W32 Igt_s))); FBasic (BSelect None); FBasic (BOp (SNum2 (B_int W32 Iadd))); FBasic (BSet 3); FEnd; FBasic (BGet 3); FBasic (BGet 2); FBasic (BOp (SNum2 (B_int W32 Iadd))); FBasic (BSet 2); FEnd; FBlock false [] []; FBasic (BGet 2); FBasic (BOp (SNum1 (U_eqz W32))); FBrIf 0; FBlock false [] []; FBasic (BGet 2); FBasic (BGet 1); FBasic (BOp (SNum2 (B_irel W32 Ilt_u))); FBrIf 0; FBasic (BGet 2); FBasic (BGet 1); FBasic (BOp (SNum2 (B_irel W32 Ieq))); FBrIf 1; FBr 5; FEnd; FBasic (BGet 0); FBasic (BGet 2); FBasic (BOp (SNum2 (B_int W32 Iadd))); FBasic (BOp (SLoad LI32_8s 0%Z)); FBasic (BConst (VI32 (-65)%Z)); FBasic (BOp (SNum2 (B_irel W32 Ile_s))); FBrIf 4; FEnd; FBlock false [] []; FBlock false [] []; FBlock false [] []; FBasic (BGet 2); FBasic (BGet 1); FBasic (BOp (SNum2 (B_irel W32 Ieq))); FBrIf 0; FBlock false [] []; FBlock false [] []; FBlock false [] []; FBasic (BGet 0); FBasic (BGet 2); FBasic (BOp (SNum2 (B_int W32 Iadd))); FBasic (BTee 3); FBasic (BOp (SLoad LI32_8s 0%Z)); FBasic (BTee 1); FBasic (BConst (VI32 (-1)%Z)); FBasic (BOp (SNum2 (B_irel W32 Igt_s))); FBrIf 0; FBasic (BGet 3); FBasic (BOp (SLoad LI32_8u 1%Z)); FBasic (BConst (VI32 63%Z)); FBasic (BOp (SNum2 (B_int W32 Iand))); FBasic (BSet 0); FBasic (BGet 1); FBasic (BConst (VI32 31%Z)); FBasic (BOp (SNum2 (B_int W32 Iand))); FBasic (BSet 6); FBasic (BGet 1); FBasic (BConst (VI32 (-33)%Z)); FBasic (BOp (SNum2 (B_irel W32 Igt_u))); FBrIf 1; FBasic (BGet 6); FBasic (BConst (VI32 6%Z)); FBasic (BOp (SNum2 (B_int W32 Ishl))); FBasic (BGet 0); FBasic (BOp (SNum2 (B_int W32 Ior))); FBasic (BSet 1); FBr 2; FEnd; FBasic (BGet 5); FBasic (BGet 1); FBasic (BConst (VI32 255%Z)); FBasic (BOp (SNum2 (B_int W32 Iand))); FBasic (BOp (SStore SI32 36%Z)); FBasic (BConst (VI32 1%Z)); FBasic (BSet 1); FBr 4; FEnd; FBasic (BGet 0); FBasic (BConst (VI32 6%Z)); FBasic (BOp (SNum2 (B_int W32 Ishl))); FBasic (BGet 3); FBasic (BOp (SLoad LI32_8u 2%Z)); FBasic (BConst (VI32 63%Z)); FBasic (BOp (SNum2 (B_int W32 Iand))); FBasic (BOp (SNum2 (B_int W32 Ior))); FBasic (BSet 0); FBlock false [] []; FBasic (BGet 1); FBasic (BConst (VI32 (-16)%Z)); FBasic (BOp (SNum2 (B_irel W32 Ige_u))); FBrIf 0; FBasic (BGet 0); FBasic (BGet 6); FBasic (BConst (VI32 12%Z)); FBasic (BOp (SNum2 (B_int W32 Ishl))); FBasic (BOp (SNum2 (B_int W32 Ior))); FBasic (BSet 1); FBr 1; FEnd; FBasic (BGet 0); FBasic (BConst (VI32 6%Z)); FBasic (BOp (SNum2 (B_int W32 Ishl))); FBasic (BGet 3); FBasic (BOp (SLoad LI32_8u 3%Z)); FBasic (BConst (VI32 63%Z)); FBasic (BOp (SNum2 (B_int W32 Iand))); FBasic (BOp (SNum2 (B_int W32 Ior))); FBasic (BGet 6); FBasic (BConst (VI32 18%Z)); FBasic (BOp (SNum2 (B_int W32 Ishl))); FBasic (BConst (VI32 1835008%Z)); FBasic (BOp (SNum2 (B_int W32 Iand))); FBasic (BOp (SNum2 (B_int W32 Ior))); FBasic (BTee 1); FBasic (BConst (VI32 1114112%Z)); FBasic (BOp (SNum2 (B_irel W32 Ieq))); FBrIf 1; FEnd; FBasic (BGet 5); FBasic (BGet 1); FBasic (BOp (SStore SI32 36%Z)); FBasic (BGet 1); FBasic (BConst (VI32 128%Z)); FBasic (BOp (SNum2 (B_irel W32 Ige_u))); FBrIf 1; FBasic (BConst (VI32 1%Z)); FBasic (BSet 1); FBr 2; FEnd; FBasic (BGet 4); FCall 170; FUnreachable; FEnd; FBlock false [] []; FBasic (BGet 1); FBasic (BConst (VI32 2048%Z)); FBasic (BOp (SNum2 (B_irel W32 Ige_u))); FBrIf 0; FBasic (BConst (VI32 2%Z)); FBasic (BSet 1); FBr 1; FEnd; FBasic (BConst (VI32 3%Z)); FBasic (BConst (VI32 4%Z)); FBasic (BGet 1); FBasic (BConst (VI32 65536%Z)); FBasic (BOp (SNum2 (B_irel W32 Ilt_u))); FBasic (BSelect None); FBasic (BSet 1); FEnd; FBasic (BGet 5); FBasic (BGet 2); FBasic (BOp (SStore SI32 40%Z)); FBasic (BGet 5); FBasic (BGet 1); FBasic (BGet 2); FBasic (BOp (SNum2 (B_int W32 Iadd))); FBasic (BOp (SStore SI32 44%Z)); FBasic (BGet 5); FBasic (BConst (VI32 5%Z)); FBasic (BOp (SStore SI32 52%Z)); FBasic (BGet 5); FBasic (BConst (VI32 1055240%Z)); FBasic (BOp (SStore SI32 48%Z)); FBasic (BGet 5); FBasic (BConst (VI64 5%Z)); FBasic (BOp (SStore SI64 60%Z)); FBasic (BGet 5); FBasic (BConst (VI32 56%Z)); FBasic (BOp (SCvt (C_ext Ux))); FBasic (BConst (VI64 32%Z)); FBasic (BOp (SNum2 (B_int W64 Ishl))); FBasic (BTee 9); FBasic (BGet 5); FBasic (BConst (VI32 24%Z)); FBasic (BOp (SNum2 (B_int W32 Iadd))); FBasic (BOp (SCvt (C_ext Ux))); FBasic (BOp (SNum2 (B_int W64 Ior))); FBasic (BOp (SStore SI64 104%Z)); FBasic (BGet 5); FBasic (BGet 9); FBasic (BGet 5); FBasic (BConst (VI32 16%Z)); FBasic (BOp (SNum2 (B_int W32 Iadd))); FBasic (BOp (SCvt (C_ext Ux))); FBasic (BOp (SNum2 (B_int W64 Ior))); FBasic (BOp (SStore SI64 96%Z)); FBasic (BGet 5); FBasic (BConst (VI32 58%Z)); FBasic (BOp (SCvt (C_ext Ux))); FBasic (BConst (VI64 32%Z)); FBasic (BOp (SNum2 (B_int W64 Ishl))); FBasic (BGet 5); FBasic (BConst (VI32 40%Z)); FBasic (BOp (SNum2 (B_int W32 Iadd))); FBasic (BOp (SCvt (C_ext Ux))); FBasic (BOp (SNum2 (B_int W64 Ior))); FBasic (BOp (SStore SI64 88%Z)); FBasic (BGet 5); FBasic (BConst (VI32 59%Z)); FBasic (BOp (SCvt (C_ext Ux))); FBasic (BConst (VI64 32%Z)); FBasic (BOp (SNum2 (B_int W64 Ishl))); FBasic (BGet 5); FBasic (BConst (VI32 36%Z)); FBasic (BOp (SNum2 (B_int W32 Iadd))); FBasic (BOp (SCvt (C_ext Ux))); FBasic (BOp (SNum2 (B_int W64 Ior))); FBasic (BOp (SStore SI64 80%Z)); FBasic (BGet 5); FBasic (BConst (VI32 8%Z)); FBasic (BOp (SCvt (C_ext Ux))); FBasic (BConst (VI64 32%Z)); FBasic (BOp (SNum2 (B_int W64 Ishl))); FBasic (BGet 5); FBasic (BConst (VI32 32%Z)); FBasic (BOp (SNum2 (B_int W32 Iadd))); FBasic (BOp (SCvt (C_ext Ux))); FBasic (BOp (SNum2 (B_int W64 Ior))); FBasic (BOp (SStore SI64 72%Z)); FBasic (BGet 5); FBasic (BGet 5); FBasic (BConst (VI32 72%Z)); FBasic (BOp (SNum2 (B_int W32 Iadd))); FBasic (BOp (SStore SI32 56%Z)); FBasic (BGet 5); FBasic (BConst (VI32 48%Z)); FBasic (BOp (SNum2 (B_int W32 Iadd))); FBasic (BGet 4); FCall 152; FUnreachable; FEnd; FBasic (BGet 5); FBasic (BGet 2); FBasic (BGet 3); FBasic (BGet 6); FBasic (BSelect None); FBasic (BOp (SStore SI32 40%Z)); FBasic (BGet 5); FBasic (BConst (VI32 3%Z)); FBasic (BOp (SStore SI32 52%Z)); FBasic (BGet 5); FBasic (BConst (VI32 1055304%Z)); FBasic (BOp (SStore SI32 48%Z)); FBasic (BGet 5); FBasic (BConst (VI64 3%Z)); FBasic (BOp (SStore SI64 60%Z)); FBasic (BGet 5); FBasic (BConst (VI32 56%Z)); FBasic (BOp (SCvt (C_ext Ux))); FBasic (BConst (VI64 32%Z)); FBasic (BOp (SNum2 (B_int W64 Ishl))); FBasic (BTee 9); FBasic (BGet 5); FBasic (BConst (VI32 24%Z)); FBasic (BOp (SNum2 (B_int W32 Iadd))); FBasic (BOp (SCvt (C_ext Ux))); FBasic (BOp (SNum2 (B_int W64 Ior))); FBasic (BOp (SStore SI64 88%Z)); FBasic (BGet 5); FBasic (BGet 9); FBasic (BGet 5); FBasic (BConst (VI32 16%Z)); FBasic (BOp (SNum2 (B_int W32 Iadd))); FBasic (BOp (SCvt (C_ext Ux))); FBasic (BOp (SNum2 (B_int W64 Ior))); FBasic (BOp (SStore SI64 80%Z)); FBasic (BGet 5); FBasic (BConst (VI32 8%Z)); FBasic (BOp (SCvt (C_ext Ux))); FBasic (BConst (VI64 32%Z)); FBasic (BOp (SNum2 (B_int W64 Ishl))); FBasic (BGet 5); FBasic (BConst (VI32 40%Z)); FBasic (BOp (SNum2 (B_int W32 Iadd))); FBasic (BOp (SCvt (C_ext Ux))); FBasic (BOp (SNum2 (B_int W64 Ior))); FBasic (BOp (SStore SI64 72%Z)); FBasic (BGet 5); FBasic (BGet 5); FBasic (BConst (VI32 72%Z)); FBasic (BOp (SNum2 (B_int W32 Iadd))); FBasic (BOp (SStore SI32 56%Z)); FBasic (BGet 5); FBasic (BConst (VI32 48%Z)); FBasic (BOp (SNum2 (B_int W32 Iadd))); FBasic (BGet 4); FCall 152; FUnreachable; FEnd; FBasic (BGet 5); FBasic (BConst (VI32 4%Z)); FBasic (BOp (SStore SI32 52%Z)); FBasic (BGet 5); FBasic (BConst (VI32 1055144%Z)); FBasic (BOp (SStore SI32 48%Z)); FBasic (BGet 5); FBasic (BConst (VI64 4%Z)); FBasic (BOp (SStore SI64 60%Z)); FBasic (BGet 5); FBasic (BConst (VI32 56%Z)); FBasic (BOp (SCvt (C_ext Ux))); FBasic (BConst (VI64 32%Z)); FBasic (BOp (SNum2 (B_int W64 Ishl))); FBasic (BTee 9); FBasic (BGet 5); FBasic (BConst (VI32 24%Z)); FBasic (BOp (SNum2 (B_int W32 Iadd))); FBasic (BOp (SCvt (C_ext Ux))); FBasic (BOp (SNum2 (B_int W64 Ior))); FBasic (BOp (SStore SI64 96%Z)); FBasic (BGet 5); FBasic (BGet 9); FBasic (BGet 5); FBasic (BConst (VI32 16%Z)); FBasic (BOp (SNum2 (B_int W32 Iadd))); FBasic (BOp (SCvt (C_ext Ux))); FBasic (BOp (SNum2 (B_int W64 Ior))); FBasic (BOp (SStore SI64 88%Z)); FBasic (BGet 5); FBasic (BConst (VI32 8%Z)); FBasic (BOp (SCvt (C_ext Ux))); FBasic (BConst (VI64 32%Z)); FBasic (BOp (SNum2 (B_int W64 Ishl))); FBasic (BTee 9); FBasic (BGet 5); FBasic (BConst (VI32 12%Z)); FBasic (BOp (SNum2 (B_int W32 Iadd))); FBasic (BOp (SCvt (C_ext Ux))); FBasic (BOp (SNum2 (B_int W64 Ior))); FBasic (BOp (SStore SI64 80%Z)); FBasic (BGet 5); FBasic (BGet 9); FBasic (BGet 5); FBasic (BConst (VI32 8%Z)); FBasic (BOp (SNum2 (B_int W32 Iadd))); FBasic (BOp (SCvt (C_ext Ux))); FBasic (BOp (SNum2 (B_int W64 Ior))); FBasic (BOp (SStore SI64 72%Z)); FBasic (BGet 5); FBasic (BGet 5); FBasic (BConst (VI32 72%Z)); FBasic (BOp (SNum2 (B_int W32 Iadd))); FBasic (BOp (SStore SI32 56%Z)); FBasic (BGet 5); FBasic (BConst (VI32 48%Z)); FBasic (BOp (SNum2 (B_int W32 Iadd))); FBasic (BGet 4); FCall 152; FUnreachable; FEnd; FBasic (BGet 2); FBasic (BGet 6); FBasic (BConst (VI32 1055328%Z)); FCall 167; FUnreachable; FEnd; FBasic (BGet 0); FBasic (BGet 1); FBasic (BGet 2); FBasic (BGet 1); FBasic (BGet 4); FCall 186; FUnreachable; FEnd]; b_bad := false |};
    PCode {| b_locals := [TI32; TI32; TI32; TI32; TI32; TI32]; b_badlocals := false; b_ops := [FBasic (BGet 1); FBasic (BGet 2); FBasic (BConst (VI32 1%Z)); FBasic (BOp (SNum2 (B_int W32 Ishl))); FBasic (BOp (SNum2 (B_int W32 Iadd))); FBasic (BSet 7); FBasic (BGet 0); FBasic (BConst (VI32 65280%Z)); FBasic (BOp (SNum2 (B_int W32 Iand))); FBasic (BConst (VI32 8%Z)); FBasic (BOp (SNum2 (B_int W32 Ishr_u))); FBasic (BSet 8); FBasic (BConst (VI32 0%Z)); FBasic (BSet 9); FBasic (BGet 0); FBasic (BConst (VI32 255%Z)); FBasic (BOp (SNum2 (B_int W32 Iand))); FBasic (BSet 10); FBlock false [] []; FBlock false [] []; FBlock false [] []; FBlock false [] []; FBlock true [] []; FBasic (BGet 1); FBasic (BConst (VI32 2%Z)); FBasic (BOp (SNum2 (B_int W32 Iadd))); FBasic (BSet 11); FBasic (BGet 9); FBasic (BGet 1); FBasic (BOp (SLoad LI32_8u 1%Z)); FBasic (BTee 2); FBasic (BOp (SNum2 (B_int W32 Iadd))); FBasic (BSet 12); FBlock false [] []; FBasic (BGet 1); FBasic (BOp (SLoad LI32_8u 0%Z)); FBasic (BTee 1); FBasic (BGet 8); FBasic (BOp (SNum2 (B_irel W32 Ieq))); FBrIf 0; FBasic (BGet 1); FBasic (BGet 8); FBasic (BOp (SNum2 (B_irel W32 Igt_u))); FBrIf 4; FBasic (BGet 12); FBasic (BSet 9); FBasic (BGet 11); FBasic (BSet 1); FBasic (BGet 11); FBasic (BGet 7); FBasic (BOp (SNum2 (B_irel W32 Ine))); FBrIf 1; FBr 4; FEnd; FBasic (BGet 12); FBasic (BGet 9); FBasic (BOp (SNum2 (B_irel W32 Ilt_u))); FBrIf 1; FBasic (BGet 12); FBasic (BGet 4); FBasic (BOp (SNum2 (B_irel W32 Igt_u))); FBrIf 2; FBasic (BGet 3); FBasic (BGet 9); FBasic (BOp (SNum2 (B_int W32 Iadd))); FBasic (BSet 1); FBlock true [] []; FBlock false [] []; FBasic (BGet 2); FBrIf 0; FBasic (BGet 12); FBasic (BSet 9); FBasic (BGet 11); FBasic (BSet 1); FBasic (BGet 11); FBasic (BGet 7); FBasic (BOp (SNum2 (B_irel W32 Ine))); FBrIf 2; FBr 5; FEnd; FBasic (BGet 2); FBasic (BConst (VI32 (-1)%Z)); FBasic (BOp (SNum2 (B_int W32 Iadd))); FBasic (BSet 2); FBasic (BGet 1); FBasic (BOp (SLoad LI32_8u 0%Z)); FBasic (BSet 9); FBasic (BGet 1); FBasic (BConst (VI32 1%Z)); FBasic (BOp (SNum2 (B_int W32 Iadd))); FBasic (BSet 1); FBasic (BGet 9); FBasic (BGet 10); FBasic (BOp (SNum2 (B_irel W32 Ine))); FBrIf 0; FEnd; FEnd; FBasic (BConst (VI32 0%Z)); FBasic (BSet 2); FBr 3; FEnd; FBasic (BGet 9); FBasic (BGet 12); FBasic (BConst (VI32 1055400%Z)); FCall 167; FUnreachable; FEnd; FBasic (BGet 12); FBasic (BGet 4); FBasic (BConst (VI32 1055400%Z)); FCall 149; FUnreachable; FEnd; FBasic (BGet 0); FBasic (BConst (VI32 65535%Z)); FBasic (BOp (SNum2 (B_int W32 Iand))); FBasic (BSet 9); FBasic (BGet 5); FBasic (BGet 6); FBasic (BOp (SNum2 (B_int W32 Iadd))); FBasic (BSet 12); FBasic (BConst (VI32 1%Z)); FBasic (BSet 2); FBlock true [] []; FBasic (BGet 5); FBasic (BConst (VI32 1%Z)); FBasic (BOp (SNum2 (B_int W32 Iadd))); FBasic (BSet 10); FBlock false [] []; FBlock false [] []; FBasic (BGet 5); FBasic (BOp (SLoad LI32_8s 0%Z)); FBasic (BTee 1); FBasic (BConst (VI32 0%Z)); FBasic (BOp (SNum2 (B_irel W32 Ilt_s))); FBrIf 0; FBasic (BGet 10); FBasic (BSet 5); FBr 1; FEnd; FBlock false [] []; FBasic (BGet 10); FBasic (BGet 12); FBasic (BOp (SNum2 (B_irel W32 Ieq))); FBrIf 0; FBasic (BGet 1); FBasic (BConst (VI32 127%Z)); FBasic (BOp (SNum2 (B_int W32 Iand))); FBasic (BConst (VI32 8%Z)); FBasic (BOp (SNum2 (B_int W32 Ishl))); FBasic (BGet 5); FBasic (BOp (SLoad LI32_8u 1%Z)); FBasic (BOp (SNum2 (B_int W32 Ior))); FBasic (BSet 1); FBasic (BGet 5); FBasic (BConst (VI32 2%Z)); FBasic (BOp (SNum2 (B_int W32 Iadd))); FBasic (BSet 5); FBr 1; FEnd; FBasic (BConst (VI32 1055384%Z)); FCall 170; FUnreachable; FEnd; FBasic (BGet 9); FBasic (BGet 1); FBasic (BOp (SNum2 (B_int W32 Isub))); FBasic (BTee 9); FBasic (BConst (VI32 0%Z)); FBasic (BOp (SNum2 (B_irel W32 Ilt_s))); FBrIf 1; FBasic (BGet 2); FBasic (BConst (VI32 1%Z)); FBasic (BOp (SNum2 (B_int W32 Ixor))); FBasic (BSet 2); FBasic (BGet 5); FBasic (BGet 12); FBasic (BOp (SNum2 (B_irel W32 Ine))); FBrIf 0; FEnd; FEnd; FBasic (BGet 2); FBasic (BConst (VI32 1%Z)); FBasic (BOp (SNum2 (B_int W32 Iand))); FEnd]; b_bad := false |};
    PCode {| b_locals := [TI32; TI32; TI32; TI32; TI32; TI32]; b_badlocals := false; b_ops := [FBasic (BOp (SGlobalGet TI32 0)); FBasic (BConst (VI32 16%Z)); FBasic (BOp (SNum2 (B_int W32 Isub))); FBasic (BTee 3); FBasic (BOp (SGlobalSet TI32 0)); FBlock false [] []; FBlock false [] []; FBasic (BGet 0); FBasic (BConst (VI32 65535%Z)); FBasic (BOp (SNum2 (B_int W32 Iand))); FBasic (BTee 4); FBasic (BConst (VI32 1000%Z)); FBasic (BOp (SNum2 (B_irel W32 Ilt_u))); FBrIf 0; FBasic (BConst (VI32 1%Z)); FBasic (BSet 5); FBasic (BGet 3); FBasic (BGet 0); FBasic (BGet 4); FBasic (BConst (VI32 10000%Z)); FBasic (BOp (SNum2 (B_int W32 Idiv_u))); FBasic (BTee 6); FBasic (BConst (VI32 10000%Z)); FBasic (BOp (SNum2 (B_int W32 Imul))); FBasic (BOp (SNum2 (B_int W32 Isub))); FBasic (BTee 4); FBasic (BConst (VI32 65535%Z)); FBasic (BOp (SNum2 (B_int W32 Iand))); FBasic (BConst (VI32 100%Z)); FBasic (BOp (SNum2 (B_int W32 Idiv_u))); FBasic (BTee 7); FBasic (BConst (VI32 1%Z)); FBasic (BOp (SNum2 (B_int W32 Ishl))); FBasic (BTee 8); FBasic (BConst (VI32 1054808%Z)); FBasic (BOp (SNum2 (B_int W32 Iadd))); FBasic (BOp (SLoad LI32_8u 0%Z)); FBasic (BOp (SStore SI32_8 13%Z)); FBasic (BGet 3); FBasic (BGet 8); FBasic (BConst (VI32 1054807%Z)); FBasic (BOp (SNum2 (B_int W32 Iadd))); FBasic (BOp (SLoad LI32_8u 0%Z)); FBasic (BOp (SStore SI32_8 12%Z)); FBasic (BGet 3); FBasic (BGet 4); FBasic (BGet 7); FBasic (BConst (VI32 100%Z)); FBasic (BOp (SNum2 (B_int W32 Imul))); FBasic (BOp (SNum2 (B_int W32 Isub))); FBasic (BConst (VI32 65535%Z)); FBasic (BOp (SNum2 (B_int W32 Iand))); FBasic (BConst (VI32 1%Z)); FBasic (BOp (SNum2 (B_int W32 Ishl))); FBasic (BTee 4); FBasic (BConst (VI32 1054808%Z)); FBasic (BOp (SNum2 (B_int W32 Iadd))); FBasic (BOp (SLoad LI32_8u 0%Z)); FBasic (BOp (SStore SI32_8 15%Z)); FBasic (BGet 3); FBasic (BGet 4); FBasic (BConst (VI32 1054807%Z)); FBasic (BOp (SNum2 (B_int W32 Iadd))); FBasic (BOp (SLoad LI32_8u 0%Z)); FBasic (BOp (SStore SI32_8 14%Z)); FBr 1; FEnd; FBasic (BConst (VI32 5%Z)); FBasic (BSet 5); FBasic (BGet 0); FBasic (BSet 6); FBasic (BGet 4); FBasic (BConst (VI32 10%Z)); FBasic (BOp (SNum2 (B_irel W32 Ilt_u))); FBrIf 0; FBasic (BGet 3); FBasic (BGet 0); FBasic (BGet 0); FBasic (BConst (VI32 65535%Z)); FBasic (BOp (SNum2 (B_int W32 Iand))); FBasic (BConst (VI32 100%Z)); FBasic (BOp (SNum2 (B_int W32 Idiv_u))); FBasic (BTee 6); FBasic (BConst (VI32 100%Z)); FBasic (BOp (SNum2 (B_int W32 Imul))); FBasic (BOp (SNum2 (B_int W32 Isub))); FBasic (BConst (VI32 65535%Z)); FBasic (BOp (SNum2 (B_int W32 Iand))); FBasic (BConst (VI32 1%Z)); FBasic (BOp (SNum2 (B_int W32 Ishl))); FBasic (BTee 5); FBasic (BConst (VI32 1054808%Z)); FBasic (BOp (SNum2 (B_int W32 Iadd))); FBasic (BOp (SLoad LI32_8u 0%Z)); FBasic (BOp (SStore SI32_8 15%Z)); FBasic (BGet 3); FBasic (BGet 5); FBasic (BConst (VI32 1054807%Z)); FBasic (BOp (SNum2 (B_int W32 Iadd))); FBasic (BOp (SLoad LI32_8u 0%Z)); FBasic (BOp (SStore SI32_8 14%Z)); FBasic (BConst (VI32 3%Z)); FBasic (BSet 5); FEnd; FBlock false [] []; FBlock false [] []; FBasic (BGet 0); FBasic (BConst (VI32 65535%Z)); FBasic (BOp (SNum2 (B_int W32 Iand))); FBasic (BOp (SNum1 (U_eqz W32))); FBrIf 0; FBasic (BGet 6); FBasic (BConst (VI32 65535%Z)); FBasic (BOp (SNum2 (B_int W32 Iand))); FBasic (BOp (SNum1 (U_eqz W32))); FBrIf 1; FEnd; FBasic (BGet 3); FBasic (BConst (VI32 11%Z)); FBasic (BOp (SNum2 (B_int W32 Iadd))); FBasic (BGet 5); FBasic (BConst (VI32 (-1)%Z)); FBasic (BOp (SNum2 (B_int W32 Iadd))); FBasic (BTee 5); FBasic (BOp (SNum2 (B_int W32 Iadd))); FBasic (BGet 6); FBasic (BConst (VI32 1%Z)); FBasic (BOp (SNum2 (B_int W32 Ishl))); FBasic (BConst (VI32 30%Z)); FBasic (BOp (SNum2 (B_int W32 Iand))); FBasic (BConst (VI32 1054808%Z)); FBasic (BOp (SNum2 (B_int W32 Iadd))); FBasic (BOp (SLoad LI32_8u 0%Z)); FBasic (BOp (SStore SI32_8 0%Z)); FEnd; FBasic (BGet 2); FBasic (BGet 1); FBasic (BConst (VI32 1%Z)); FBasic (BConst (VI32 0%Z)); FBasic (BGet 3); FBasic (BConst (VI32 11%Z)); FBasic (BOp (SNum2 (B_int W32 Iadd))); FBasic (BGet 5); FBasic (BOp (SNum2 (B_int W32 Iadd))); FBasic (BConst (VI32 5%Z)); FBasic (BGet 5); FBasic (BOp (SNum2 (B_int W32 Isub))); FCall 156; FBasic (BSet 0); FBasic (BGet 3); FBasic (BConst (VI32 16%Z)); FBasic (BOp (SNum2 (B_int W32 Iadd))); FBasic (BOp (SGlobalSet TI32 0)); FBasic (BGet 0); FEnd]; b_bad := false |};
    PCode {| b_locals := [TI32; TI32; TI32]; b_badlocals := false; b_ops := [FBasic (BOp (SGlobalGet TI32 0)); FBasic (BConst (VI32 128%Z)); FBasic (BOp (SNum2 (B_int W32 Isub))); FBasic (BTee 2); FBasic (BOp (SGlobalSet TI32 0)); FBasic (BGet 0); FBasic (BOp (SLoad LI32_16u 0%Z)); FBasic (BSet 3); FBasic (BConst (VI32 0%Z)); FBasic (BSet 0); FBlock true [] []; FBasic (BGet 2); FBasic (BGet 0); FBasic (BOp (SNum2 (B_int W32 Iadd))); FBasic (BConst (VI32 127%Z)); FBasic (BOp (SNum2 (B_int W32 Iadd))); FBasic (BGet 3); FBasic (BConst (VI32 15%Z)); FBasic (BOp (SNum2 (B_int W32 Iand))); FBasic (BTee 4); FBasic (BConst (VI32 48%Z)); FBasic (BOp (SNum2 (B_int W32 Ior))); FBasic (BGet 4); FBasic (BConst (VI32 55%Z)); FBasic (BOp (SNum2 (B_int W32 Iadd))); FBasic (BGet 4); FBasic (BConst (VI32 10%Z)); FBasic (BOp (SNum2 (B_irel W32 Ilt_u))); FBasic (BSelect None); FBasic (BOp (SStore SI32_8 0%Z)); FBasic (BGet 0); FBasic (BConst (VI32 (-1)%Z)); FBasic (BOp (SNum2 (B_int W32 Iadd))); FBasic (BSet 0); FBasic (BGet 3); FBasic (BConst (VI32 65535%Z)); FBasic (BOp (SNum2 (B_int W32 Iand))); FBasic (BTee 4); FBasic (BConst (VI32 4%Z)); FBasic (BOp (SNum2 (B_int W32 Ishr_u))); FBasic (BSet 3); FBasic (BGet 4); FBasic (BConst (VI32 15%Z)); FBasic (BOp (SNum2 (B_irel W32 Igt_u))); FBrIf 0; FEnd; FBasic (BGet 1); FBasic (BConst (VI32 1%Z)); FBasic (BConst (VI32 1054805%Z)); FBasic (BConst (VI32 2%Z)); FBasic (BGet 2); FBasic (BGet 0); FBasic (BOp (SNum2 (B_int W32 Iadd))); FBasic (BConst (VI32 128%Z)); FBasic (BOp (SNum2 (B_int W32 Iadd))); FBasic (BConst (VI32 0%Z)); FBasic (BGet 0); FBasic (BOp (SNum2 (B_int W32 Isub))); FCall 156; FBasic (BSet 0); FBasic (BGet 2); FBasic (BConst (VI32 128%Z)); FBasic (BOp (SNum2 (B_int W32 Iadd))); FBasic (BOp (SGlobalSet TI32 0)); FBasic (BGet 0); FEnd]; b_bad := false |};
    PDatas [Some {| ds_bytes := [0%Z; 0%Z; 0%Z; 0%Z; 4%Z; 0%Z; 0%Z; 0%Z; 4%Z; 0%Z; 0%Z; 0%Z; 2%Z; 0%Z; 0%Z; 0%Z; 3%Z; 0%Z; 0%Z; 0%Z; 3%Z; 0%Z; 0%Z; 0%Z; 0%Z; 0%Z; 0%Z; 0%Z; 2%Z; 0%Z; 0%Z; 0%Z; 2%Z; 0%Z; 0%Z; 0%Z; 4%Z; 0%Z; 0%Z; 0%Z; 115%Z; 99%Z; 104%Z; 101%Z; 100%Z; 95%Z; 121%Z; 105%Z; 101%Z; 108%Z; 100%Z; 115%Z; 114%Z; 99%Z; 47%Z; 98%Z; 105%Z; 110%Z; 47%Z; 115%Z; 99%Z; 104%Z; 101%Z; 100%Z; 95%Z; 121%Z; 105%Z; 101%Z; 108%Z; 100%Z; 46%Z; 114%Z; 115%Z; 0%Z; 0%Z; 0%Z; 51%Z; 0%Z; 16%Z; 0%Z; 22%Z; 0%Z; 0%Z; 0%Z; 2%Z; 0%Z; 0%Z; 0%Z; 25%Z; 0%Z; 0%Z; 0%Z; 117%Z; 110%Z; 115%Z; 97%Z; 102%Z; 101%Z; 32%Z; 112%Z; 114%Z; 101%Z; 99%Z; 111%Z; 110%Z; 100%Z; 105%Z; 116%Z; 105%Z; 111%Z; 110%Z; 40%Z; 115%Z; 41%Z; 32%Z; 118%Z; 105%Z; 111%Z; 108%Z; 97%Z; 116%Z; 101%Z; 100%Z; 58%Z; 32%Z; 104%Z; 105%Z; 110%Z; 116%Z; 58%Z; 58%Z; 117%Z; 110%Z; 114%Z; 101%Z; 97%Z; 99%Z; 104%Z; 97%Z; 98%Z; 108%Z; 101%Z; 95%Z; 117%Z; 110%Z; 99%Z; 104%Z; 101%Z; 99%Z; 107%Z; 101%Z; 100%Z; 32%Z; 109%Z; 117%Z; 115%Z; 116%Z; 32%Z; 110%Z; 101%Z; 118%Z; 101%Z; 114%Z; 32%Z; 98%Z; 101%Z; 32%Z; 114%Z; 101%Z; 97%Z; 99%Z; 104%Z; 101%Z; 100%Z; 10%Z; 10%Z; 84%Z; 104%Z; 105%Z; 115%Z; 32%Z; 105%Z; 110%Z; 100%Z; 105%Z; 99%Z; 97%Z; 116%Z; 101%Z; 115%Z; 32%Z; 97%Z; 32%Z; 98%Z; 117%Z; 103%Z; 32%Z; 105%Z; 110%Z; 32%Z; 116%Z; 104%Z; 101%Z; 32%Z; 112%Z; 114%Z; 111%Z; 103%Z; 114%Z; 97%Z; 109%Z; 46%Z; 32%Z; 84%Z; 104%Z; 105%Z; 115%Z; 32%Z; 85%Z; 110%Z; 100%Z; 101%Z; 102%Z; 105%Z; 110%Z; 101%Z; 100%Z; 32%Z; 66%Z; 101%Z; 104%Z; 97%Z; 118%Z; 105%Z; 111%Z; 114%Z; 32%Z; 99%Z; 104%Z; 101%Z; 99%Z; 107%Z; 32%Z; 105%Z; 115%Z; 32%Z; 111%Z; 112%Z; 116%Z; 105%Z; 111%Z; 110%Z; 97%Z; 108%Z; 44%Z; 32%Z; 97%Z; 110%Z; 100%Z; 32%Z; 99%Z; 97%Z; 110%Z; 110%Z; 111%Z; 116%Z; 32%Z; 98%Z; 101%Z; 32%Z; 114%Z; 101%Z; 108%Z; 105%Z; 101%Z; 100%Z; 32%Z; 111%Z; 110%Z; 32%Z; 102%Z; 111%Z; 114%Z; 32%Z; 115%Z; 97%Z; 102%Z; 101%Z; 116%Z; 121%Z; 46%Z; 99%Z; 111%Z; 100%Z; 101%Z; 110%Z; 97%Z; 109%Z; 101%Z; 0%Z; 0%Z; 0%Z; 0%Z; 0%Z; 8%Z; 0%Z; 0%Z; 0%Z; 4%Z; 0%Z; 0%Z; 0%Z; 5%Z; 0%Z; 0%Z; 0%Z; 109%Z; 101%Z; 115%Z; 115%Z; 97%Z; 103%Z; 101%Z; 83%Z; 85%Z; 67%Z; 67%Z; 69%Z; 83%Z; 83%Z; 50%Z; 66%Z; 73%Z; 71%Z; 65%Z; 67%Z; 67%Z; 69%Z; 83%Z; 65%Z; 68%Z; 68%Z; 82%Z; 73%Z; 78%Z; 85%Z; 83%Z; 69%Z; 65%Z; 68%Z; 68%Z; 82%Z; 78%Z; 79%Z; 84%Z; 65%Z; 86%Z; 65%Z; 73%Z; 76%Z; 65%Z; 70%Z; 78%Z; 79%Z; 83%Z; 85%Z; 80%Z; 80%Z; 79%Z; 82%Z; 84%Z; 65%Z; 71%Z; 65%Z; 73%Z; 78%Z; 65%Z; 76%Z; 82%Z; 69%Z; 65%Z; 68%Z; 89%Z; 66%Z; 65%Z; 68%Z; 70%Z; 66%Z; 65%Z; 68%Z; 77%Z; 83%Z; 71%Z; 66%Z; 85%Z; 83%Z; 89%Z; 67%Z; 65%Z; 78%Z; 67%Z; 69%Z; 76%Z; 69%Z; 68%Z; 67%Z; 72%Z; 73%Z; 76%Z; 68%Z; 67%Z; 79%Z; 78%Z; 78%Z; 65%Z; 66%Z; 79%Z; 82%Z; 84%Z; 69%Z; 68%Z; 67%Z; 79%Z; 78%Z; 78%Z; 82%Z; 69%Z; 70%Z; 85%Z; 83%Z; 69%Z; 68%Z; 67%Z; 79%Z; 78%Z; 78%Z; 82%Z; 69%Z; 83%Z; 69%Z; 84%Z; 68%Z; 69%Z; 65%Z; 68%Z; 76%Z; 75%Z; 68%Z; 69%Z; 83%Z; 84%Z; 65%Z; 68%Z; 68%Z; 82%Z; 82%Z; 69%Z; 81%Z; 68%Z; 79%Z; 77%Z; 68%Z; 81%Z; 85%Z; 79%Z; 84%Z; 69%Z; 88%Z; 73%Z; 83%Z; 84%Z; 70%Z; 65%Z; 85%Z; 76%Z; 84%Z; 70%Z; 66%Z; 73%Z; 71%Z; 72%Z; 79%Z; 83%Z; 84%Z; 85%Z; 78%Z; 82%Z; 69%Z; 65%Z; 67%Z; 72%Z; 73%Z; 68%Z; 82%Z; 77%Z; 73%Z; 76%Z; 83%Z; 69%Z; 81%Z; 73%Z; 78%Z; 80%Z; 82%Z; 79%Z; 71%Z; 82%Z; 69%Z; 83%Z; 83%Z; 73%Z; 78%Z; 84%Z; 82%Z; 73%Z; 78%Z; 86%Z; 65%Z; 76%Z; 73%Z; 79%Z; 73%Z; 83%Z; 67%Z; 79%Z; 78%Z; 78%Z; 73%Z; 83%Z; 68%Z; 73%Z; 82%Z; 76%Z; 79%Z; 79%Z; 80%Z; 77%Z; 70%Z; 73%Z; 76%Z; 69%Z; 77%Z; 76%Z; 73%Z; 78%Z; 75%Z; 77%Z; 83%Z; 71%Z; 83%Z; 73%Z; 90%Z; 69%Z; 77%Z; 85%Z; 76%Z; 84%Z; 73%Z; 72%Z; 79%Z; 80%Z; 78%Z; 65%Z; 77%Z; 69%Z; 84%Z; 79%Z; 79%Z; 76%Z; 79%Z; 78%Z; 71%Z; 78%Z; 69%Z; 84%Z; 68%Z; 79%Z; 87%Z; 78%Z; 78%Z; 69%Z; 84%Z; 82%Z; 69%Z; 83%Z; 69%Z; 84%Z; 78%Z; 69%Z; 84%Z; 85%Z; 78%Z; 82%Z; 69%Z; 65%Z; 67%Z; 72%Z; 78%Z; 70%Z; 73%Z; 76%Z; 69%Z; 78%Z; 79%Z; 66%Z; 85%Z; 70%Z; 83%Z; 78%Z; 79%Z; 68%Z; 69%Z; 86%Z; 78%Z; 79%Z; 69%Z; 78%Z; 84%Z; 78%Z; 79%Z; 69%Z; 88%Z; 69%Z; 67%Z; 78%Z; 79%Z; 76%Z; 67%Z; 75%Z; 78%Z; 79%Z; 76%Z; 73%Z; 78%Z; 75%Z; 78%Z; 79%Z; 77%Z; 69%Z; 77%Z; 78%Z; 79%Z; 77%Z; 83%Z; 71%Z; 78%Z; 79%Z; 80%Z; 82%Z; 79%Z; 84%Z; 79%Z; 79%Z; 80%Z; 84%Z; 78%Z; 79%Z; 83%Z; 80%Z; 67%Z; 78%Z; 79%Z; 83%Z; 89%Z; 83%Z; 78%Z; 79%Z; 84%Z; 67%Z; 79%Z; 78%Z; 78%Z; 78%Z; 79%Z; 84%Z; 68%Z; 73%Z; 82%Z; 78%Z; 79%Z; 84%Z; 69%Z; 77%Z; 80%Z; 84%Z; 89%Z; 78%Z; 79%Z; 84%Z; 82%Z; 69%Z; 67%Z; 79%Z; 86%Z; 69%Z; 82%Z; 65%Z; 66%Z; 76%Z; 69%Z; 78%Z; 79%Z; 84%Z; 83%Z; 79%Z; 67%Z; 75%Z; 78%Z; 79%Z; 84%Z; 83%Z; 85%Z; 80%Z; 78%Z; 79%Z; 84%Z; 84%Z; 89%Z; 78%Z; 88%Z; 73%Z; 79%Z; 79%Z; 86%Z; 69%Z; 82%Z; 70%Z; 76%Z; 79%Z; 87%Z; 79%Z; 87%Z; 78%Z; 69%Z; 82%Z; 68%Z; 69%Z; 65%Z; 68%Z; 80%Z; 69%Z; 82%Z; 77%Z; 80%Z; 73%Z; 80%Z; 69%Z; 80%Z; 82%Z; 79%Z; 84%Z; 79%Z; 80%Z; 82%Z; 79%Z; 84%Z; 79%Z; 78%Z; 79%Z; 83%Z; 85%Z; 80%Z; 80%Z; 79%Z; 82%Z; 84%Z; 80%Z; 82%Z; 79%Z; 84%Z; 79%Z; 84%Z; 89%Z; 80%Z; 69%Z; 82%Z; 65%Z; 78%Z; 71%Z; 69%Z; 82%Z; 79%Z; 70%Z; 83%Z; 83%Z; 80%Z; 73%Z; 80%Z; 69%Z; 83%Z; 82%Z; 67%Z; 72%Z; 83%Z; 84%Z; 65%Z; 76%Z; 69%Z; 84%Z; 73%Z; 77%Z; 69%Z; 68%Z; 79%Z; 85%Z; 84%Z; 84%Z; 88%Z; 84%Z; 66%Z; 83%Z; 89%Z; 88%Z; 68%Z; 69%Z; 86%Z; 78%Z; 79%Z; 84%Z; 67%Z; 65%Z; 80%Z; 65%Z; 66%Z; 76%Z; 69%Z; 78%Z; 111%Z; 32%Z; 101%Z; 114%Z; 114%Z; 111%Z; 114%Z; 32%Z; 111%Z; 99%Z; 99%Z; 117%Z; 114%Z; 114%Z; 101%Z; 100%Z; 46%Z; 32%Z; 83%Z; 121%Z; 115%Z; 116%Z; 101%Z; 109%Z; 32%Z; 99%Z; 97%Z; 108%Z; 108%Z; 32%Z; 99%Z; 111%Z; 109%Z; 112%Z; 108%Z; 101%Z; 116%Z; 101%Z; 100%Z; 32%Z; 115%Z; 117%Z; 99%Z; 99%Z; 101%Z; 115%Z; 115%Z; 102%Z; 117%Z; 108%Z; 108%Z; 121%Z; 46%Z; 65%Z; 114%Z; 103%Z; 117%Z; 109%Z; 101%Z; 110%Z; 116%Z; 32%Z; 108%Z; 105%Z; 115%Z; 116%Z; 32%Z; 116%Z; 111%Z; 111%Z; 32%Z; 108%Z; 111%Z; 110%Z; 103%Z; 46%Z; 80%Z; 101%Z; 114%Z; 109%Z; 105%Z; 115%Z; 115%Z; 105%Z; 111%Z; 110%Z; 32%Z; 100%Z; 101%Z; 110%Z; 105%Z; 101%Z; 100%Z; 46%Z; 65%Z; 100%Z; 100%Z; 114%Z; 101%Z; 115%Z; 115%Z; 32%Z; 105%Z; 110%Z; 32%Z; 117%Z; 115%Z; 101%Z; 46%Z; 65%Z; 100%Z; 100%Z; 114%Z; 101%Z; 115%Z; 115%Z; 32%Z; 110%Z; 111%Z; 116%Z; 32%Z; 97%Z; 118%Z; 97%Z; 105%Z; 108%Z; 97%Z; 98%Z; 108%Z; 101%Z; 46%Z; 65%Z; 100%Z; 100%Z; 114%Z; 101%Z; 115%Z; 115%Z; 32%Z; 102%Z; 97%Z; 109%Z; 105%Z; 108%Z; 121%Z; 32%Z; 110%Z; 111%Z; 116%Z; 32%Z; 115%Z; 117%Z; 112%Z; 112%Z; 111%Z; 114%Z; 116%Z; 101%Z; 100%Z; 46%Z; 82%Z; 101%Z; 115%Z; 111%Z; 117%Z; 114%Z; 99%Z; 101%Z; 32%Z; 117%Z; 110%Z; 97%Z; 118%Z; 97%Z; 105%Z; 108%Z; 97%Z; 98%Z; 108%Z; 101%Z; 44%Z; 32%Z; 111%Z; 114%Z; 32%Z; 111%Z; 112%Z; 101%Z; 114%Z; 97%Z; 116%Z; 105%Z; 111%Z; 110%Z; 32%Z; 119%Z; 111%Z; 117%Z; 108%Z; 100%Z; 32%Z; 98%Z; 108%Z; 111%Z; 99%Z; 107%Z; 46%Z; 67%Z; 111%Z; 110%Z; 110%Z; 101%Z; 99%Z; 116%Z; 105%Z; 111%Z; 110%Z; 32%Z; 97%Z; 108%Z; 114%Z; 101%Z; 97%Z; 100%Z; 121%Z; 32%Z; 105%Z; 110%Z; 32%Z; 112%Z; 114%Z; 111%Z; 103%Z; 114%Z; 101%Z; 115%Z; 115%Z; 46%Z; 66%Z; 97%Z; 100%Z; 32%Z; 102%Z; 105%Z; 108%Z; 101%Z; 32%Z; 100%Z; 101%Z; 115%Z; 99%Z; 114%Z; 105%Z; 112%Z; 116%Z; 111%Z; 114%Z; 46%Z; 66%Z; 97%Z; 100%Z; 32%Z; 109%Z; 101%Z; 115%Z; 115%Z; 97%Z; 103%Z; 101%Z; 46%Z; 68%Z; 101%Z; 118%Z; 105%Z; 99%Z; 101%Z; 32%Z; 111%Z; 114%Z; 32%Z; 114%Z; 101%Z; 115%Z; 111%Z; 117%Z; 114%Z; 99%Z; 101%Z; 32%Z; 98%Z; 117%Z; 115%Z; 121%Z; 46%Z; 79%Z; 112%Z; 101%Z; 114%Z; 97%Z; 116%Z; 105%Z; 111%Z; 110%Z; 32%Z; 99%Z; 97%Z; 110%Z; 99%Z; 101%Z; 108%Z; 101%Z; 100%Z; 46%Z; 78%Z; 111%Z; 32%Z; 99%Z; 104%Z; 105%Z; 108%Z; 100%Z; 32%Z; 112%Z; 114%Z; 111%Z; 99%Z; 101%Z; 115%Z; 115%Z; 101%Z; 115%Z; 46%Z; 67%Z; 111%Z; 110%Z; 110%Z; 101%Z; 99%Z; 116%Z; 105%Z; 111%Z; 110%Z; 32%Z; 97%Z; 98%Z; 111%Z; 114%Z; 116%Z; 101%Z; 100%Z; 46%Z; 67%Z; 111%Z; 110%Z; 110%Z; 101%Z; 99%Z; 116%Z; 105%Z; 111%Z; 110%Z; 32%Z; 114%Z; 101%Z; 102%Z; 117%Z; 115%Z; 101%Z; 100%Z; 46%Z; 67%Z; 111%Z; 110%Z; 110%Z; 101%Z; 99%Z; 116%Z; 105%Z; 111%Z; 110%Z; 32%Z; 114%Z; 101%Z; 115%Z; 101%Z; 116%Z; 46%Z; 82%Z; 101%Z; 115%Z; 111%Z; 117%Z; 114%Z; 99%Z; 101%Z; 32%Z; 100%Z; 101%Z; 97%Z; 100%Z; 108%Z; 111%Z; 99%Z; 107%Z; 32%Z; 119%Z; 111%Z; 117%Z; 108%Z; 100%Z; 32%Z; 111%Z; 99%Z; 99%Z; 117%Z; 114%Z; 46%Z; 68%Z; 101%Z; 115%Z; 116%Z; 105%Z; 110%Z; 97%Z; 116%Z; 105%Z; 111%Z; 110%Z; 32%Z; 97%Z; 100%Z; 100%Z; 114%Z; 101%Z; 115%Z; 115%Z; 32%Z; 114%Z; 101%Z; 113%Z; 117%Z; 105%Z; 114%Z; 101%Z; 100%Z; 46%Z; 77%Z; 97%Z; 116%Z; 104%Z; 101%Z; 109%Z; 97%Z; 116%Z; 105%Z; 99%Z; 115%Z; 32%Z; 97%Z; 114%Z; 103%Z; 117%Z; 109%Z; 101%Z; 110%Z; 116%Z; 32%Z; 111%Z; 117%Z; 116%Z; 32%Z; 111%Z; 102%Z; 32%Z; 100%Z; 111%Z; 109%Z; 97%Z; 105%Z; 110%Z; 32%Z; 111%Z; 102%Z; 32%Z; 102%Z; 117%Z; 110%Z; 99%Z; 116%Z; 105%Z; 111%Z; 110%Z; 46%Z; 82%Z; 101%Z; 115%Z; 101%Z; 114%Z; 118%Z; 101%Z; 100%Z; 46%Z; 70%Z; 105%Z; 108%Z; 101%Z; 32%Z; 101%Z; 120%Z; 105%Z; 115%Z; 116%Z; 115%Z; 46%Z; 66%Z; 97%Z; 100%Z; 32%Z; 97%Z; 100%Z; 100%Z; 114%Z; 101%Z; 115%Z; 115%Z; 46%Z; 70%Z; 105%Z; 108%Z; 101%Z; 32%Z; 116%Z; 111%Z; 111%Z; 32%Z; 108%Z; 97%Z; 114%Z; 103%Z; 101%Z; 46%Z; 72%Z; 111%Z; 115%Z; 116%Z; 32%Z; 105%Z; 115%Z; 32%Z; 117%Z; 110%Z; 114%Z; 101%Z; 97%Z; 99%Z; 104%Z; 97%Z; 98%Z; 108%Z; 101%Z; 46%Z; 73%Z; 100%Z; 101%Z; 110%Z; 116%Z; 105%Z; 102%Z; 105%Z; 101%Z; 114%Z; 32%Z; 114%Z; 101%Z; 109%Z; 111%Z; 118%Z; 101%Z; 100%Z; 46%Z; 73%Z; 108%Z; 108%Z; 101%Z; 103%Z; 97%Z; 108%Z; 32%Z; 98%Z; 121%Z; 116%Z; 101%Z; 32%Z; 115%Z; 101%Z; 113%Z; 117%Z; 101%Z; 110%Z; 99%Z; 101%Z; 46%Z; 79%Z; 112%Z; 101%Z; 114%Z; 97%Z; 116%Z; 105%Z; 111%Z; 110%Z; 32%Z; 105%Z; 110%Z; 32%Z; 112%Z; 114%Z; 111%Z; 103%Z; 114%Z; 101%Z; 115%Z; 115%Z; 46%Z; 73%Z; 110%Z; 116%Z; 101%Z; 114%Z; 114%Z; 117%Z; 112%Z; 116%Z; 101%Z; 100%Z; 32%Z; 102%Z; 117%Z; 110%Z; 99%Z; 116%Z; 105%Z; 111%Z; 110%Z; 46%Z; 73%Z; 110%Z; 118%Z; 97%Z; 108%Z; 105%Z; 100%Z; 32%Z; 97%Z; 114%Z; 103%Z; 117%Z; 109%Z; 101%Z; 110%Z; 116%Z; 46%Z; 73%Z; 47%Z; 79%Z; 32%Z; 101%Z; 114%Z; 114%Z; 111%Z; 114%Z; 46%Z; 83%Z; 111%Z; 99%Z; 107%Z; 101%Z; 116%Z; 32%Z; 105%Z; 115%Z; 32%Z; 99%Z; 111%Z; 110%Z; 110%Z; 101%Z; 99%Z; 116%Z; 101%Z; 100%Z; 46%Z; 73%Z; 115%Z; 32%Z; 97%Z; 32%Z; 100%Z; 105%Z; 114%Z; 101%Z; 99%Z; 116%Z; 111%Z; 114%Z; 121%Z; 46%Z; 84%Z; 111%Z; 111%Z; 32%Z; 109%Z; 97%Z; 110%Z; 121%Z; 32%Z; 108%Z; 101%Z; 118%Z; 101%Z; 108%Z; 115%Z; 32%Z; 111%Z; 102%Z; 32%Z; 115%Z; 121%Z; 109%Z; 98%Z; 111%Z; 108%Z; 105%Z; 99%Z; 32%Z; 108%Z; 105%Z; 110%Z; 107%Z; 115%Z; 46%Z; 70%Z; 105%Z; 108%Z; 101%Z; 32%Z; 100%Z; 101%Z; 115%Z; 99%Z; 114%Z; 105%Z; 112%Z; 116%Z; 111%Z; 114%Z; 32%Z; 118%Z; 97%Z; 108%Z; 117%Z; 101%Z; 32%Z; 116%Z; 111%Z; 111%Z; 32%Z; 108%Z; 97%Z; 114%Z; 103%Z; 101%Z; 46%Z; 84%Z; 111%Z; 111%Z; 32%Z; 109%Z; 97%Z; 110%Z; 121%Z; 32%Z; 108%Z; 105%Z; 110%Z; 107%Z; 115%Z; 46%Z; 77%Z; 101%Z; 115%Z; 115%Z; 97%Z; 103%Z; 101%Z; 32%Z; 116%Z; 111%Z; 111%Z; 32%Z; 108%Z; 97%Z; 114%Z; 103%Z; 101%Z; 46%Z; 70%Z; 105%Z; 108%Z; 101%Z; 110%Z; 97%Z; 109%Z; 101%Z; 32%Z; 116%Z; 111%Z; 111%Z; 32%Z; 108%Z; 111%Z; 110%Z; 103%Z; 46%Z; 78%Z; 101%Z; 116%Z; 119%Z; 111%Z; 114%Z; 107%Z; 32%Z; 105%Z; 115%Z; 32%Z; 100%Z; 111%Z; 119%Z; 110%Z; 46%Z; 67%Z; 111%Z; 110%Z; 110%Z; 101%Z; 99%Z; 116%Z; 105%Z; 111%Z; 110%Z; 32%Z; 97%Z; 98%Z; 111%Z; 114%Z; 116%Z; 101%Z; 100%Z; 32%Z; 98%Z; 121%Z; 32%Z; 110%Z; 101%Z; 116%Z; 119%Z; 111%Z; 114%Z; 107%Z; 46%Z; 78%Z; 101%Z; 116%Z; 119%Z; 111%Z; 114%Z; 107%Z; 32%Z; 117%Z; 110%Z; 114%Z; 101%Z; 97%Z; 99%Z; 104%Z; 97%Z; 98%Z; 108%Z; 101%Z; 46%Z; 84%Z; 111%Z; 111%Z; 32%Z; 109%Z; 97%Z; 110%Z; 121%Z; 32%Z; 102%Z; 105%Z; 108%Z; 101%Z; 115%Z; 32%Z; 111%Z; 112%Z; 101%Z; 110%Z; 32%Z; 105%Z; 110%Z; 32%Z; 115%Z; 121%Z; 115%Z; 116%Z; 101%Z; 109%Z; 46%Z; 78%Z; 111%Z; 32%Z; 98%Z; 117%Z; 102%Z; 102%Z; 101%Z; 114%Z; 32%Z; 115%Z; 112%Z; 97%Z; 99%Z; 101%Z; 32%Z; 97%Z; 118%Z; 97%Z; 105%Z; 108%Z; 97%Z; 98%Z; 108%Z; 101%Z; 46%Z; 78%Z; 111%Z; 32%Z; 115%Z; 117%Z; 99%Z; 104%Z; 32%Z; 100%Z; 101%Z; 118%Z; 105%Z; 99%Z; 101%Z; 46%Z; 78%Z; 111%Z; 32%Z; 115%Z; 117%Z; 99%Z; 104%Z; 32%Z; 102%Z; 105%Z; 108%Z; 101%Z; 32%Z; 111%Z; 114%Z; 32%Z; 100%Z; 105%Z; 114%Z; 101%Z; 99%Z; 116%Z; 111%Z; 114%Z; 121%Z; 46%Z; 69%Z; 120%Z; 101%Z; 99%Z; 117%Z; 116%Z; 97%Z; 98%Z; 108%Z; 101%Z; 32%Z; 102%Z; 105%Z; 108%Z; 101%Z; 32%Z; 102%Z; 111%Z; 114%Z; 109%Z; 97%Z; 116%Z; 32%Z; 101%Z; 114%Z; 114%Z; 111%Z; 114%Z; 46%Z; 78%Z; 111%Z; 32%Z; 108%Z; 111%Z; 99%Z; 107%Z; 115%Z; 32%Z; 97%Z; 118%Z; 97%Z; 105%Z; 108%Z; 97%Z; 98%Z; 108%Z; 101%Z; 46%Z; 78%Z; 111%Z; 116%Z; 32%Z; 101%Z; 110%Z; 111%Z; 117%Z; 103%Z; 104%Z; 32%Z; 115%Z; 112%Z; 97%Z; 99%Z; 101%Z; 46%Z; 78%Z; 111%Z; 32%Z; 109%Z; 101%Z; 115%Z; 115%Z; 97%Z; 103%Z; 101%Z; 32%Z; 111%Z; 102%Z; 32%Z; 116%Z; 104%Z; 101%Z; 32%Z; 100%Z; 101%Z; 115%Z; 105%Z; 114%Z; 101%Z; 100%Z; 32%Z; 116%Z; 121%Z; 112%Z; 101%Z; 46%Z; 80%Z; 114%Z; 111%Z; 116%Z; 111%Z; 99%Z; 111%Z; 108%Z; 32%Z; 110%Z; 111%Z; 116%Z; 32%Z; 97%Z; 118%Z; 97%Z; 105%Z; 108%Z; 97%Z; 98%Z; 108%Z; 101%Z; 46%Z; 78%Z; 111%Z; 32%Z; 115%Z; 112%Z; 97%Z; 99%Z; 101%Z; 32%Z; 108%Z; 101%Z; 102%Z; 116%Z; 32%Z; 111%Z; 110%Z; 32%Z; 100%Z; 101%Z; 118%Z; 105%Z; 99%Z; 101%Z; 46%Z; 70%Z; 117%Z; 110%Z; 99%Z; 116%Z; 105%Z; 111%Z; 110%Z; 32%Z; 110%Z; 111%Z; 116%Z; 32%Z; 115%Z; 117%Z; 112%Z; 112%Z; 111%Z; 114%Z; 116%Z; 101%Z; 100%Z; 46%Z; 84%Z; 104%Z; 101%Z; 32%Z; 115%Z; 111%Z; 99%Z; 107%Z; 101%Z; 116%Z; 32%Z; 105%Z; 115%Z; 32%Z; 110%Z; 111%Z; 116%Z; 32%Z; 99%Z; 111%Z; 110%Z; 110%Z; 101%Z; 99%Z; 116%Z; 101%Z; 100%Z; 46%Z; 78%Z; 111%Z; 116%Z; 32%Z; 97%Z; 32%Z; 100%Z; 105%Z; 114%Z; 101%Z; 99%Z; 116%Z; 111%Z; 114%Z; 121%Z; 32%Z; 111%Z; 114%Z; 32%Z; 97%Z; 32%Z; 115%Z; 121%Z; 109%Z; 98%Z; 111%Z; 108%Z; 105%Z; 99%Z; 32%Z; 108%Z; 105%Z; 110%Z; 107%Z; 32%Z; 116%Z; 111%Z; 32%Z; 97%Z; 32%Z; 100%Z; 105%Z; 114%Z; 101%Z; 99%Z; 116%Z; 111%Z; 114%Z; 121%Z; 46%Z; 68%Z; 105%Z; 114%Z; 101%Z; 99%Z; 116%Z; 111%Z; 114%Z; 121%Z; 32%Z; 110%Z; 111%Z; 116%Z; 32%Z; 101%Z; 109%Z; 112%Z; 116%Z; 121%Z; 46%Z; 83%Z; 116%Z; 97%Z; 116%Z; 101%Z; 32%Z; 110%Z; 111%Z; 116%Z; 32%Z; 114%Z; 101%Z; 99%Z; 111%Z; 118%Z; 101%Z; 114%Z; 97%Z; 98%Z; 108%Z; 101%Z; 46%Z; 78%Z; 111%Z; 116%Z; 32%Z; 97%Z; 32%Z; 115%Z; 111%Z; 99%Z; 107%Z; 101%Z; 116%Z; 46%Z; 78%Z; 111%Z; 116%Z; 32%Z; 115%Z; 117%Z; 112%Z; 112%Z; 111%Z; 114%Z; 116%Z; 101%Z; 100%Z; 44%Z; 32%Z; 111%Z; 114%Z; 32%Z; 111%Z; 112%Z; 101%Z; 114%Z; 97%Z; 116%Z; 105%Z; 111%Z; 110%Z; 32%Z; 110%Z; 111%Z; 116%Z; 32%Z; 115%Z; 117%Z; 112%Z; 112%Z; 111%Z; 114%Z; 116%Z; 101%Z; 100%Z; 32%Z; 111%Z; 110%Z; 32%Z; 115%Z; 111%Z; 99%Z; 107%Z; 101%Z; 116%Z; 46%Z; 73%Z; 110%Z; 97%Z; 112%Z; 112%Z; 114%Z; 111%Z; 112%Z; 114%Z; 105%Z; 97%Z; 116%Z; 101%Z; 32%Z; 73%Z; 47%Z; 79%Z; 32%Z; 99%Z; 111%Z; 110%Z; 116%Z; 114%Z; 111%Z; 108%Z; 32%Z; 111%Z; 112%Z; 101%Z; 114%Z; 97%Z; 116%Z; 105%Z; 111%Z; 110%Z; 46%Z; 78%Z; 111%Z; 32%Z; 115%Z; 117%Z; 99%Z; 104%Z; 32%Z; 100%Z; 101%Z; 118%Z; 105%Z; 99%Z; 101%Z; 32%Z; 111%Z; 114%Z; 32%Z; 97%Z; 100%Z; 100%Z; 114%Z; 101%Z; 115%Z; 115%Z; 46%Z; 86%Z; 97%Z; 108%Z; 117%Z; 101%Z; 32%Z; 116%Z; 111%Z; 111%Z; 32%Z; 108%Z; 97%Z; 114%Z; 103%Z; 101%Z; 32%Z; 116%Z; 111%Z; 32%Z; 98%Z; 101%Z; 32%Z; 115%Z; 116%Z; 111%Z; 114%Z; 101%Z; 100%Z; 32%Z; 105%Z; 110%Z; 32%Z; 100%Z; 97%Z; 116%Z; 97%Z; 32%Z; 116%Z; 121%Z; 112%Z; 101%Z; 46%Z; 80%Z; 114%Z; 101%Z; 118%Z; 105%Z; 111%Z; 117%Z; 115%Z; 32%Z; 111%Z; 119%Z; 110%Z; 101%Z; 114%Z; 32%Z; 100%Z; 105%Z; 101%Z; 100%Z; 46%Z; 79%Z; 112%Z; 101%Z; 114%Z; 97%Z; 116%Z; 105%Z; 111%Z; 110%Z; 32%Z; 110%Z; 111%Z; 116%Z; 32%Z; 112%Z; 101%Z; 114%Z; 109%Z; 105%Z; 116%Z; 116%Z; 101%Z; 100%Z; 46%Z; 66%Z; 114%Z; 111%Z; 107%Z; 101%Z; 110%Z; 32%Z; 112%Z; 105%Z; 112%Z; 101%Z; 46%Z; 80%Z; 114%Z; 111%Z; 116%Z; 111%Z; 99%Z; 111%Z; 108%Z; 32%Z; 101%Z; 114%Z; 114%Z; 111%Z; 114%Z; 46%Z; 80%Z; 114%Z; 111%Z; 116%Z; 111%Z; 99%Z; 111%Z; 108%Z; 32%Z; 110%Z; 111%Z; 116%Z; 32%Z; 115%Z; 117%Z; 112%Z; 112%Z; 111%Z; 114%Z; 116%Z; 101%Z; 100%Z; 46%Z; 80%Z; 114%Z; 111%Z; 116%Z; 111%Z; 99%Z; 111%Z; 108%Z; 32%Z; 119%Z; 114%Z; 111%Z; 110%Z; 103%Z; 32%Z; 116%Z; 121%Z; 112%Z; 101%Z; 32%Z; 102%Z; 111%Z; 114%Z; 32%Z; 115%Z; 111%Z; 99%Z; 107%Z; 101%Z; 116%Z; 46%Z; 82%Z; 101%Z; 115%Z; 117%Z; 108%Z; 116%Z; 32%Z; 116%Z; 111%Z; 111%Z; 32%Z; 108%Z; 97%Z; 114%Z; 103%Z; 101%Z; 46%Z; 82%Z; 101%Z; 97%Z; 100%Z; 45%Z; 111%Z; 110%Z; 108%Z; 121%Z; 32%Z; 102%Z; 105%Z; 108%Z; 101%Z; 32%Z; 115%Z; 121%Z; 115%Z; 116%Z; 101%Z; 109%Z; 46%Z; 73%Z; 110%Z; 118%Z; 97%Z; 108%Z; 105%Z; 100%Z; 32%Z; 115%Z; 101%Z; 101%Z; 107%Z; 46%Z; 78%Z; 111%Z; 32%Z; 115%Z; 117%Z; 99%Z; 104%Z; 32%Z; 112%Z; 114%Z; 111%Z; 99%Z; 101%Z; 115%Z; 115%Z; 46%Z; 67%Z; 111%Z; 110%Z; 110%Z; 101%Z; 99%Z; 116%Z; 105%Z; 111%Z; 110%Z; 32%Z; 116%Z; 105%Z; 109%Z; 101%Z; 100%Z; 32%Z; 111%Z; 117%Z; 116%Z; 46%Z; 84%Z; 101%Z; 120%Z; 116%Z; 32%Z; 102%Z; 105%Z; 108%Z; 101%Z; 32%Z; 98%Z; 117%Z; 115%Z; 121%Z; 46%Z; 67%Z; 114%Z; 111%Z; 115%Z; 115%Z; 45%Z; 100%Z; 101%Z; 118%Z; 105%Z; 99%Z; 101%Z; 32%Z; 108%Z; 105%Z; 110%Z; 107%Z; 46%Z; 69%Z; 120%Z; 116%Z; 101%Z; 110%Z; 115%Z; 105%Z; 111%Z; 110%Z; 58%Z; 32%Z; 67%Z; 97%Z; 112%Z; 97%Z; 98%Z; 105%Z; 108%Z; 105%Z; 116%Z; 105%Z; 101%Z; 115%Z; 32%Z; 105%Z; 110%Z; 115%Z; 117%Z; 102%Z; 102%Z; 105%Z; 99%Z; 105%Z; 101%Z; 110%Z; 116%Z; 46%Z; 69%Z; 114%Z; 114%Z; 110%Z; 111%Z; 0%Z; 0%Z; 0%Z; 0%Z; 0%Z; 0%Z; 2%Z; 0%Z; 0%Z; 0%Z; 2%Z; 0%Z; 0%Z; 0%Z; 6%Z; 0%Z; 0%Z; 0%Z; 108%Z; 105%Z; 98%Z; 114%Z; 97%Z; 114%Z; 121%Z; 47%Z; 115%Z; 116%Z; 100%Z; 47%Z; 115%Z; 114%Z; 99%Z; 47%Z; 112%Z; 97%Z; 110%Z; 105%Z; 99%Z; 107%Z; 105%Z; 110%Z; 103%Z; 46%Z; 114%Z; 115%Z; 0%Z; 0%Z; 0%Z; 0%Z; 4%Z; 0%Z; 0%Z; 0%Z; 4%Z; 0%Z; 0%Z; 0%Z; 13%Z; 0%Z; 0%Z; 0%Z; 47%Z; 114%Z; 117%Z; 115%Z; 116%Z; 99%Z; 47%Z; 54%Z; 98%Z; 48%Z; 48%Z; 98%Z; 99%Z; 51%Z; 56%Z; 56%Z; 48%Z; 49%Z; 57%Z; 56%Z; 54%Z; 48%Z; 48%Z; 49%Z; 51%Z; 48%Z; 101%Z; 49%Z; 99%Z; 102%Z; 54%Z; 50%Z; 98%Z; 56%Z; 102%Z; 56%Z; 97%Z; 57%Z; 51%Z; 52%Z; 57%Z; 52%Z; 52%Z; 56%Z; 56%Z; 99%Z; 99%Z; 47%Z; 108%Z; 105%Z; 98%Z; 114%Z; 97%Z; 114%Z; 121%Z; 47%Z; 97%Z; 108%Z; 108%Z; 111%Z; 99%Z; 47%Z; 115%Z; 114%Z; 99%Z; 47%Z; 118%Z; 101%Z; 99%Z; 47%Z; 109%Z; 111%Z; 100%Z; 46%Z; 114%Z; 115%Z; 60%Z; 10%Z; 16%Z; 0%Z; 76%Z; 0%Z; 0%Z; 0%Z; 86%Z; 10%Z; 0%Z; 0%Z; 36%Z; 0%Z; 0%Z; 0%Z; 47%Z; 114%Z; 117%Z; 115%Z; 116%Z; 99%Z; 47%Z; 54%Z; 98%Z; 48%Z; 48%Z; 98%Z; 99%Z; 51%Z; 56%Z; 56%Z; 48%Z; 49%Z; 57%Z; 56%Z; 54%Z; 48%Z; 48%Z; 49%Z; 51%Z; 48%Z; 101%Z; 49%Z; 99%Z; 102%Z; 54%Z; 50%Z; 98%Z; 56%Z; 102%Z; 56%Z; 97%Z; 57%Z; 51%Z; 52%Z; 57%Z; 52%Z; 52%Z; 56%Z; 56%Z; 99%Z; 99%Z; 47%Z; 108%Z; 105%Z; 98%Z; 114%Z; 97%Z; 114%Z; 121%Z; 47%Z; 97%Z; 108%Z; 108%Z; 111%Z; 99%Z; 47%Z; 115%Z; 114%Z; 99%Z; 47%Z; 114%Z; 97%Z; 119%Z; 95%Z; 118%Z; 101%Z; 99%Z; 47%Z; 109%Z; 111%Z; 100%Z; 46%Z; 114%Z; 115%Z; 152%Z; 10%Z; 16%Z; 0%Z; 80%Z; 0%Z; 0%Z; 0%Z; 46%Z; 2%Z; 0%Z; 0%Z; 17%Z; 0%Z; 0%Z; 0%Z; 58%Z; 0%Z; 0%Z; 0%Z; 1%Z; 0%Z; 0%Z; 0%Z; 0%Z; 0%Z; 0%Z; 0%Z; 248%Z; 10%Z; 16%Z; 0%Z; 1%Z; 0%Z; 0%Z; 0%Z; 248%Z; 10%Z; 16%Z; 0%Z; 1%Z; 0%Z; 0%Z; 0%Z; 14%Z; 0%Z; 0%Z; 0%Z; 12%Z; 0%Z; 0%Z; 0%Z; 4%Z; 0%Z; 0%Z; 0%Z; 15%Z; 0%Z; 0%Z; 0%Z; 16%Z; 0%Z; 0%Z; 0%Z; 17%Z; 0%Z; 0%Z; 0%Z; 14%Z; 0%Z; 0%Z; 0%Z; 12%Z; 0%Z; 0%Z; 0%Z; 4%Z; 0%Z; 0%Z; 0%Z; 18%Z; 0%Z; 0%Z; 0%Z; 19%Z; 0%Z; 0%Z; 0%Z; 20%Z; 0%Z; 0%Z; 0%Z; 14%Z; 0%Z; 0%Z; 0%Z; 12%Z; 0%Z; 0%Z; 0%Z; 4%Z; 0%Z; 0%Z; 0%Z; 21%Z; 0%Z; 0%Z; 0%Z; 22%Z; 0%Z; 0%Z; 0%Z; 23%Z; 0%Z; 0%Z; 0%Z; 24%Z; 0%Z; 0%Z; 0%Z; 12%Z; 0%Z; 0%Z; 0%Z; 4%Z; 0%Z; 0%Z; 0%Z; 25%Z; 0%Z; 0%Z; 0%Z; 26%Z; 0%Z; 0%Z; 0%Z; 27%Z; 0%Z; 0%Z; 0%Z; 47%Z; 114%Z; 117%Z; 115%Z; 116%Z; 99%Z; 47%Z; 54%Z; 98%Z; 48%Z; 48%Z; 98%Z; 99%Z; 51%Z; 56%Z; 56%Z; 48%Z; 49%Z; 57%Z; 56%Z; 54%Z; 48%Z; 48%Z; 49%Z; 51%Z; 48%Z; 101%Z; 49%Z; 99%Z; 102%Z; 54%Z; 50%Z; 98%Z; 56%Z; 102%Z; 56%Z; 97%Z; 57%Z; 51%Z; 52%Z; 57%Z; 52%Z; 52%Z; 56%Z; 56%Z; 99%Z; 99%Z; 47%Z; 108%Z; 105%Z; 98%Z; 114%Z; 97%Z; 114%Z; 121%Z; 47%Z; 97%Z; 108%Z; 108%Z; 111%Z; 99%Z; 47%Z; 115%Z; 114%Z; 99%Z; 47%Z; 115%Z; 108%Z; 105%Z; 99%Z; 101%Z; 46%Z; 114%Z; 115%Z; 0%Z; 0%Z; 116%Z; 11%Z; 16%Z; 0%Z; 74%Z; 0%Z; 0%Z; 0%Z; 190%Z; 1%Z; 0%Z; 0%Z; 29%Z; 0%Z; 0%Z; 0%Z; 108%Z; 105%Z; 98%Z; 114%Z; 97%Z; 114%Z; 121%Z; 47%Z; 115%Z; 116%Z; 100%Z; 47%Z; 115%Z; 114%Z; 99%Z; 47%Z; 114%Z; 116%Z; 46%Z; 114%Z; 115%Z; 0%Z; 0%Z; 0%Z; 208%Z; 11%Z; 16%Z; 0%Z; 21%Z; 0%Z; 0%Z; 0%Z; 134%Z; 0%Z; 0%Z; 0%Z; 13%Z; 0%Z; 0%Z; 0%Z; 108%Z; 105%Z; 98%Z; 114%Z; 97%Z; 114%Z; 121%Z; 47%Z; 115%Z; 116%Z; 100%Z; 47%Z; 115%Z; 114%Z; 99%Z; 47%Z; 116%Z; 104%Z; 114%Z; 101%Z; 97%Z; 100%Z; 47%Z; 109%Z; 111%Z; 100%Z; 46%Z; 114%Z; 115%Z; 102%Z; 97%Z; 105%Z; 108%Z; 101%Z; 100%Z; 32%Z; 116%Z; 111%Z; 32%Z; 103%Z; 101%Z; 110%Z; 101%Z; 114%Z; 97%Z; 116%Z; 101%Z; 32%Z; 117%Z; 110%Z; 105%Z; 113%Z; 117%Z; 101%Z; 32%Z; 116%Z; 104%Z; 114%Z; 101%Z; 97%Z; 100%Z; 32%Z; 73%Z; 68%Z; 58%Z; 32%Z; 98%Z; 105%Z; 116%Z; 115%Z; 112%Z; 97%Z; 99%Z; 101%Z; 32%Z; 101%Z; 120%Z; 104%Z; 97%Z; 117%Z; 115%Z; 116%Z; 101%Z; 100%Z; 21%Z; 12%Z; 16%Z; 0%Z; 55%Z; 0%Z; 0%Z; 0%Z; 248%Z; 11%Z; 16%Z; 0%Z; 29%Z; 0%Z; 0%Z; 0%Z; 169%Z; 4%Z; 0%Z; 0%Z; 13%Z; 0%Z; 0%Z; 0%Z; 109%Z; 97%Z; 105%Z; 110%Z; 82%Z; 85%Z; 83%Z; 84%Z; 95%Z; 66%Z; 65%Z; 67%Z; 75%Z; 84%Z; 82%Z; 65%Z; 67%Z; 69%Z; 102%Z; 97%Z; 105%Z; 108%Z; 101%Z; 100%Z; 32%Z; 116%Z; 111%Z; 32%Z; 119%Z; 114%Z; 105%Z; 116%Z; 101%Z; 32%Z; 116%Z; 104%Z; 101%Z; 32%Z; 98%Z; 117%Z; 102%Z; 102%Z; 101%Z; 114%Z; 101%Z; 100%Z; 32%Z; 100%Z; 97%Z; 116%Z; 97%Z; 0%Z; 118%Z; 12%Z; 16%Z; 0%Z; 33%Z; 0%Z; 0%Z; 0%Z; 23%Z; 0%Z; 0%Z; 0%Z; 1%Z; 0%Z; 0%Z; 0%Z; 0%Z; 0%Z; 0%Z; 0%Z; 102%Z; 97%Z; 105%Z; 108%Z; 101%Z; 100%Z; 32%Z; 116%Z; 111%Z; 32%Z; 119%Z; 114%Z; 105%Z; 116%Z; 101%Z; 32%Z; 119%Z; 104%Z; 111%Z; 108%Z; 101%Z; 32%Z; 98%Z; 117%Z; 102%Z; 102%Z; 101%Z; 114%Z; 172%Z; 12%Z; 16%Z; 0%Z; 28%Z; 0%Z; 0%Z; 0%Z; 23%Z; 0%Z; 0%Z; 0%Z; 0%Z; 0%Z; 0%Z; 0%Z; 2%Z; 0%Z; 0%Z; 0%Z; 200%Z; 12%Z; 16%Z; 0%Z; 108%Z; 105%Z; 98%Z; 114%Z; 97%Z; 114%Z; 121%Z; 47%Z; 115%Z; 116%Z; 100%Z; 47%Z; 115%Z; 114%Z; 99%Z; 47%Z; 105%Z; 111%Z; 47%Z; 115%Z; 116%Z; 100%Z; 105%Z; 111%Z; 46%Z; 114%Z; 115%Z; 0%Z; 224%Z; 12%Z; 16%Z; 0%Z; 27%Z; 0%Z; 0%Z; 0%Z; 227%Z; 2%Z; 0%Z; 0%Z; 19%Z; 0%Z; 0%Z; 0%Z; 108%Z; 105%Z; 98%Z; 114%Z; 97%Z; 114%Z; 121%Z; 47%Z; 115%Z; 116%Z; 100%Z; 47%Z; 115%Z; 114%Z; 99%Z; 47%Z; 105%Z; 111%Z; 47%Z; 109%Z; 111%Z; 100%Z; 46%Z; 114%Z; 115%Z; 97%Z; 32%Z; 102%Z; 111%Z; 114%Z; 109%Z; 97%Z; 116%Z; 116%Z; 105%Z; 110%Z; 103%Z; 32%Z; 116%Z; 114%Z; 97%Z; 105%Z; 116%Z; 32%Z; 105%Z; 109%Z; 112%Z; 108%Z; 101%Z; 109%Z; 101%Z; 110%Z; 116%Z; 97%Z; 116%Z; 105%Z; 111%Z; 110%Z; 32%Z; 114%Z; 101%Z; 116%Z; 117%Z; 114%Z; 110%Z; 101%Z; 100%Z; 32%Z; 97%Z; 110%Z; 32%Z; 101%Z; 114%Z; 114%Z; 111%Z; 114%Z; 32%Z; 119%Z; 104%Z; 101%Z; 110%Z; 32%Z; 116%Z; 104%Z; 101%Z; 32%Z; 117%Z; 110%Z; 100%Z; 101%Z; 114%Z; 108%Z; 121%Z; 105%Z; 110%Z; 103%Z; 32%Z; 115%Z; 116%Z; 114%Z; 101%Z; 97%Z; 109%Z; 32%Z; 100%Z; 105%Z; 100%Z; 32%Z; 110%Z; 111%Z; 116%Z; 0%Z; 37%Z; 13%Z; 16%Z; 0%Z; 86%Z; 0%Z; 0%Z; 0%Z; 12%Z; 13%Z; 16%Z; 0%Z; 25%Z; 0%Z; 0%Z; 0%Z; 136%Z; 2%Z; 0%Z; 0%Z; 17%Z; 0%Z; 0%Z; 0%Z; 12%Z; 13%Z; 16%Z; 0%Z; 25%Z; 0%Z; 0%Z; 0%Z; 8%Z; 6%Z; 0%Z; 0%Z; 32%Z; 0%Z; 0%Z; 0%Z; 97%Z; 100%Z; 118%Z; 97%Z; 110%Z; 99%Z; 105%Z; 110%Z; 103%Z; 32%Z; 105%Z; 111%Z; 32%Z; 115%Z; 108%Z; 105%Z; 99%Z; 101%Z; 115%Z; 32%Z; 98%Z; 101%Z; 121%Z; 111%Z; 110%Z; 100%Z; 32%Z; 116%Z; 104%Z; 101%Z; 105%Z; 114%Z; 32%Z; 108%Z; 101%Z; 110%Z; 103%Z; 116%Z; 104%Z; 0%Z; 164%Z; 13%Z; 16%Z; 0%Z; 39%Z; 0%Z; 0%Z; 0%Z; 12%Z; 13%Z; 16%Z; 0%Z; 25%Z; 0%Z; 0%Z; 0%Z; 10%Z; 6%Z; 0%Z; 0%Z; 13%Z; 0%Z; 0%Z; 0%Z; 97%Z; 100%Z; 118%Z; 97%Z; 110%Z; 99%Z; 105%Z; 110%Z; 103%Z; 32%Z; 73%Z; 111%Z; 83%Z; 108%Z; 105%Z; 99%Z; 101%Z; 32%Z; 98%Z; 101%Z; 121%Z; 111%Z; 110%Z; 100%Z; 32%Z; 105%Z; 116%Z; 115%Z; 32%Z; 108%Z; 101%Z; 110%Z; 103%Z; 116%Z; 104%Z; 0%Z; 228%Z; 13%Z; 16%Z; 0%Z; 35%Z; 0%Z; 0%Z; 0%Z; 108%Z; 105%Z; 98%Z; 114%Z; 97%Z; 114%Z; 121%Z; 47%Z; 115%Z; 116%Z; 100%Z; 47%Z; 115%Z; 114%Z; 99%Z; 47%Z; 115%Z; 121%Z; 115%Z; 47%Z; 105%Z; 111%Z; 47%Z; 105%Z; 111%Z; 95%Z; 115%Z; 108%Z; 105%Z; 99%Z; 101%Z; 47%Z; 119%Z; 97%Z; 115%Z; 105%Z; 46%Z; 114%Z; 115%Z; 0%Z; 16%Z; 14%Z; 16%Z; 0%Z; 39%Z; 0%Z; 0%Z; 0%Z; 20%Z; 0%Z; 0%Z; 0%Z; 13%Z; 0%Z; 0%Z; 0%Z; 12%Z; 13%Z; 16%Z; 0%Z; 25%Z; 0%Z; 0%Z; 0%Z; 9%Z; 7%Z; 0%Z; 0%Z; 36%Z; 0%Z; 0%Z; 0%Z; 112%Z; 97%Z; 110%Z; 105%Z; 99%Z; 107%Z; 101%Z; 100%Z; 32%Z; 97%Z; 116%Z; 32%Z; 58%Z; 10%Z; 99%Z; 97%Z; 110%Z; 110%Z; 111%Z; 116%Z; 32%Z; 114%Z; 101%Z; 99%Z; 117%Z; 114%Z; 115%Z; 105%Z; 118%Z; 101%Z; 108%Z; 121%Z; 32%Z; 97%Z; 99%Z; 113%Z; 117%Z; 105%Z; 114%Z; 101%Z; 32%Z; 109%Z; 117%Z; 116%Z; 101%Z; 120%Z; 0%Z; 0%Z; 102%Z; 14%Z; 16%Z; 0%Z; 32%Z; 0%Z; 0%Z; 0%Z; 108%Z; 105%Z; 98%Z; 114%Z; 97%Z; 114%Z; 121%Z; 47%Z; 115%Z; 116%Z; 100%Z; 47%Z; 115%Z; 114%Z; 99%Z; 47%Z; 115%Z; 121%Z; 115%Z; 47%Z; 115%Z; 121%Z; 110%Z; 99%Z; 47%Z; 109%Z; 117%Z; 116%Z; 101%Z; 120%Z; 47%Z; 110%Z; 111%Z; 95%Z; 116%Z; 104%Z; 114%Z; 101%Z; 97%Z; 100%Z; 115%Z; 46%Z; 114%Z; 115%Z; 144%Z; 14%Z; 16%Z; 0%Z; 44%Z; 0%Z; 0%Z; 0%Z; 19%Z; 0%Z; 0%Z; 0%Z; 9%Z; 0%Z; 0%Z; 0%Z; 108%Z; 105%Z; 98%Z; 114%Z; 97%Z; 114%Z; 121%Z; 47%Z; 115%Z; 116%Z; 100%Z; 47%Z; 115%Z; 114%Z; 99%Z; 47%Z; 115%Z; 121%Z; 110%Z; 99%Z; 47%Z; 112%Z; 111%Z; 105%Z; 115%Z; 111%Z; 110%Z; 47%Z; 111%Z; 110%Z; 99%Z; 101%Z; 46%Z; 114%Z; 115%Z; 0%Z; 204%Z; 14%Z; 16%Z; 0%Z; 35%Z; 0%Z; 0%Z; 0%Z; 155%Z; 0%Z; 0%Z; 0%Z; 50%Z; 0%Z; 0%Z; 0%Z; 204%Z; 14%Z; 16%Z; 0%Z; 35%Z; 0%Z; 0%Z; 0%Z; 214%Z; 0%Z; 0%Z; 0%Z; 20%Z; 0%Z; 0%Z; 0%Z; 102%Z; 105%Z; 108%Z; 101%Z; 32%Z; 110%Z; 97%Z; 109%Z; 101%Z; 32%Z; 99%Z; 111%Z; 110%Z; 116%Z; 97%Z; 105%Z; 110%Z; 101%Z; 100%Z; 32%Z; 97%Z; 110%Z; 32%Z; 117%Z; 110%Z; 101%Z; 120%Z; 112%Z; 101%Z; 99%Z; 116%Z; 101%Z; 100%Z; 32%Z; 78%Z; 85%Z; 76%Z; 32%Z; 98%Z; 121%Z; 116%Z; 101%Z; 0%Z; 0%Z; 16%Z; 15%Z; 16%Z; 0%Z; 42%Z; 0%Z; 0%Z; 0%Z; 20%Z; 0%Z; 0%Z; 0%Z; 2%Z; 0%Z; 0%Z; 0%Z; 60%Z; 15%Z; 16%Z; 0%Z; 115%Z; 116%Z; 97%Z; 99%Z; 107%Z; 32%Z; 98%Z; 97%Z; 99%Z; 107%Z; 116%Z; 114%Z; 97%Z; 99%Z; 101%Z; 58%Z; 10%Z; 110%Z; 111%Z; 116%Z; 101%Z; 58%Z; 32%Z; 83%Z; 111%Z; 109%Z; 101%Z; 32%Z; 100%Z; 101%Z; 116%Z; 97%Z; 105%Z; 108%Z; 115%Z; 32%Z; 97%Z; 114%Z; 101%Z; 32%Z; 111%Z; 109%Z; 105%Z; 116%Z; 116%Z; 101%Z; 100%Z; 44%Z; 32%Z; 114%Z; 117%Z; 110%Z; 32%Z; 119%Z; 105%Z; 116%Z; 104%Z; 32%Z; 96%Z; 82%Z; 85%Z; 83%Z; 84%Z; 95%Z; 66%Z; 65%Z; 67%Z; 75%Z; 84%Z; 82%Z; 65%Z; 67%Z; 69%Z; 61%Z; 102%Z; 117%Z; 108%Z; 108%Z; 96%Z; 32%Z; 102%Z; 111%Z; 114%Z; 32%Z; 97%Z; 32%Z; 118%Z; 101%Z; 114%Z; 98%Z; 111%Z; 115%Z; 101%Z; 32%Z; 98%Z; 97%Z; 99%Z; 107%Z; 116%Z; 114%Z; 97%Z; 99%Z; 101%Z; 46%Z; 10%Z; 109%Z; 101%Z; 109%Z; 111%Z; 114%Z; 121%Z; 32%Z; 97%Z; 108%Z; 108%Z; 111%Z; 99%Z; 97%Z; 116%Z; 105%Z; 111%Z; 110%Z; 32%Z; 111%Z; 102%Z; 32%Z; 32%Z; 98%Z; 121%Z; 116%Z; 101%Z; 115%Z; 32%Z; 102%Z; 97%Z; 105%Z; 108%Z; 101%Z; 100%Z; 10%Z; 185%Z; 15%Z; 16%Z; 0%Z; 21%Z; 0%Z; 0%Z; 0%Z; 206%Z; 15%Z; 16%Z; 0%Z; 14%Z; 0%Z; 0%Z; 0%Z; 32%Z; 98%Z; 121%Z; 116%Z; 101%Z; 115%Z; 32%Z; 102%Z; 97%Z; 105%Z; 108%Z; 101%Z; 100%Z; 0%Z; 0%Z; 0%Z; 185%Z; 15%Z; 16%Z; 0%Z; 21%Z; 0%Z; 0%Z; 0%Z; 236%Z; 15%Z; 16%Z; 0%Z; 13%Z; 0%Z; 0%Z; 0%Z; 108%Z; 105%Z; 98%Z; 114%Z; 97%Z; 114%Z; 121%Z; 47%Z; 115%Z; 116%Z; 100%Z; 47%Z; 115%Z; 114%Z; 99%Z; 47%Z; 97%Z; 108%Z; 108%Z; 111%Z; 99%Z; 46%Z; 114%Z; 115%Z; 12%Z; 16%Z; 16%Z; 0%Z; 24%Z; 0%Z; 0%Z; 0%Z; 100%Z; 1%Z; 0%Z; 0%Z; 9%Z; 0%Z; 0%Z; 0%Z; 28%Z; 0%Z; 0%Z; 0%Z; 12%Z; 0%Z; 0%Z; 0%Z; 4%Z; 0%Z; 0%Z; 0%Z; 29%Z; 0%Z; 0%Z; 0%Z; 30%Z; 0%Z; 0%Z; 0%Z; 31%Z; 0%Z; 0%Z; 0%Z; 32%Z; 0%Z; 0%Z; 0%Z; 33%Z; 0%Z; 0%Z; 0%Z; 34%Z; 0%Z; 0%Z; 0%Z; 35%Z; 0%Z; 0%Z; 0%Z; 0%Z; 0%Z; 0%Z; 0%Z; 0%Z; 0%Z; 0%Z; 0%Z; 1%Z; 0%Z; 0%Z; 0%Z; 36%Z; 0%Z; 0%Z; 0%Z; 37%Z; 0%Z; 0%Z; 0%Z; 38%Z; 0%Z; 0%Z; 0%Z; 39%Z; 0%Z; 0%Z; 0%Z; 40%Z; 0%Z; 0%Z; 0%Z; 41%Z; 0%Z; 0%Z; 0%Z; 42%Z; 0%Z; 0%Z; 0%Z; 110%Z; 111%Z; 116%Z; 101%Z; 58%Z; 32%Z; 114%Z; 117%Z; 110%Z; 32%Z; 119%Z; 105%Z; 116%Z; 104%Z; 32%Z; 96%Z; 82%Z; 85%Z; 83%Z; 84%Z; 95%Z; 66%Z; 65%Z; 67%Z; 75%Z; 84%Z; 82%Z; 65%Z; 67%Z; 69%Z; 61%Z; 49%Z; 96%Z; 32%Z; 101%Z; 110%Z; 118%Z; 105%Z; 114%Z; 111%Z; 110%Z; 109%Z; 101%Z; 110%Z; 116%Z; 32%Z; 118%Z; 97%Z; 114%Z; 105%Z; 97%Z; 98%Z; 108%Z; 101%Z; 32%Z; 116%Z; 111%Z; 32%Z; 100%Z; 105%Z; 115%Z; 112%Z; 108%Z; 97%Z; 121%Z; 32%Z; 97%Z; 32%Z; 98%Z; 97%Z; 99%Z; 107%Z; 116%Z; 114%Z; 97%Z; 99%Z; 101%Z; 10%Z; 0%Z; 0%Z; 132%Z; 16%Z; 16%Z; 0%Z; 78%Z; 0%Z; 0%Z; 0%Z; 60%Z; 117%Z; 110%Z; 110%Z; 97%Z; 109%Z; 101%Z; 100%Z; 62%Z; 0%Z; 0%Z; 0%Z; 16%Z; 10%Z; 16%Z; 0%Z; 28%Z; 0%Z; 0%Z; 0%Z; 29%Z; 1%Z; 0%Z; 0%Z; 46%Z; 0%Z; 0%Z; 0%Z; 10%Z; 116%Z; 104%Z; 114%Z; 101%Z; 97%Z; 100%Z; 32%Z; 39%Z; 39%Z; 32%Z; 112%Z; 97%Z; 110%Z; 105%Z; 99%Z; 107%Z; 101%Z; 100%Z; 32%Z; 97%Z; 116%Z; 32%Z; 10%Z; 248%Z; 16%Z; 16%Z; 0%Z; 9%Z; 0%Z; 0%Z; 0%Z; 1%Z; 17%Z; 16%Z; 0%Z; 14%Z; 0%Z; 0%Z; 0%Z; 100%Z; 14%Z; 16%Z; 0%Z; 2%Z; 0%Z; 0%Z; 0%Z; 15%Z; 17%Z; 16%Z; 0%Z; 1%Z; 0%Z; 0%Z; 0%Z; 24%Z; 0%Z; 0%Z; 0%Z; 12%Z; 0%Z; 0%Z; 0%Z; 4%Z; 0%Z; 0%Z; 0%Z; 43%Z; 0%Z; 0%Z; 0%Z; 0%Z; 0%Z; 0%Z; 0%Z; 8%Z; 0%Z; 0%Z; 0%Z; 4%Z; 0%Z; 0%Z; 0%Z; 44%Z; 0%Z; 0%Z; 0%Z; 0%Z; 0%Z; 0%Z; 0%Z; 8%Z; 0%Z; 0%Z; 0%Z; 4%Z; 0%Z; 0%Z; 0%Z; 45%Z; 0%Z; 0%Z; 0%Z; 46%Z; 0%Z; 0%Z; 0%Z; 47%Z; 0%Z; 0%Z; 0%Z; 48%Z; 0%Z; 0%Z; 0%Z; 49%Z; 0%Z; 0%Z; 0%Z; 16%Z; 0%Z; 0%Z; 0%Z; 4%Z; 0%Z; 0%Z; 0%Z; 50%Z; 0%Z; 0%Z; 0%Z; 51%Z; 0%Z; 0%Z; 0%Z; 52%Z; 0%Z; 0%Z; 0%Z; 53%Z; 0%Z; 0%Z; 0%Z; 66%Z; 111%Z; 120%Z; 60%Z; 100%Z; 121%Z; 110%Z; 32%Z; 65%Z; 110%Z; 121%Z; 62%Z; 97%Z; 98%Z; 111%Z; 114%Z; 116%Z; 105%Z; 110%Z; 103%Z; 32%Z; 100%Z; 117%Z; 101%Z; 32%Z; 116%Z; 111%Z; 32%Z; 112%Z; 97%Z; 110%Z; 105%Z; 99%Z; 32%Z; 97%Z; 116%Z; 32%Z; 0%Z; 0%Z; 0%Z; 148%Z; 17%Z; 16%Z; 0%Z; 25%Z; 0%Z; 0%Z; 0%Z; 100%Z; 14%Z; 16%Z; 0%Z; 2%Z; 0%Z; 0%Z; 0%Z; 15%Z; 17%Z; 16%Z; 0%Z; 1%Z; 0%Z; 0%Z; 0%Z; 10%Z; 116%Z; 104%Z; 114%Z; 101%Z; 97%Z; 100%Z; 32%Z; 112%Z; 97%Z; 110%Z; 105%Z; 99%Z; 107%Z; 101%Z; 100%Z; 32%Z; 119%Z; 104%Z; 105%Z; 108%Z; 101%Z; 32%Z; 112%Z; 114%Z; 111%Z; 99%Z; 101%Z; 115%Z; 115%Z; 105%Z; 110%Z; 103%Z; 32%Z; 112%Z; 97%Z; 110%Z; 105%Z; 99%Z; 46%Z; 32%Z; 97%Z; 98%Z; 111%Z; 114%Z; 116%Z; 105%Z; 110%Z; 103%Z; 46%Z; 10%Z; 0%Z; 88%Z; 14%Z; 16%Z; 0%Z; 12%Z; 0%Z; 0%Z; 0%Z; 100%Z; 14%Z; 16%Z; 0%Z; 2%Z; 0%Z; 0%Z; 0%Z; 200%Z; 17%Z; 16%Z; 0%Z; 51%Z; 0%Z; 0%Z; 0%Z; 116%Z; 104%Z; 114%Z; 101%Z; 97%Z; 100%Z; 32%Z; 99%Z; 97%Z; 117%Z; 115%Z; 101%Z; 100%Z; 32%Z; 110%Z; 111%Z; 110%Z; 45%Z; 117%Z; 110%Z; 119%Z; 105%Z; 110%Z; 100%Z; 105%Z; 110%Z; 103%Z; 32%Z; 112%Z; 97%Z; 110%Z; 105%Z; 99%Z; 46%Z; 32%Z; 97%Z; 98%Z; 111%Z; 114%Z; 116%Z; 105%Z; 110%Z; 103%Z; 46%Z; 10%Z; 0%Z; 0%Z; 0%Z; 20%Z; 18%Z; 16%Z; 0%Z; 45%Z; 0%Z; 0%Z; 0%Z; 102%Z; 97%Z; 116%Z; 97%Z; 108%Z; 32%Z; 114%Z; 117%Z; 110%Z; 116%Z; 105%Z; 109%Z; 101%Z; 32%Z; 101%Z; 114%Z; 114%Z; 111%Z; 114%Z; 58%Z; 32%Z; 102%Z; 97%Z; 105%Z; 108%Z; 101%Z; 100%Z; 32%Z; 116%Z; 111%Z; 32%Z; 105%Z; 110%Z; 105%Z; 116%Z; 105%Z; 97%Z; 116%Z; 101%Z; 32%Z; 112%Z; 97%Z; 110%Z; 105%Z; 99%Z; 44%Z; 32%Z; 101%Z; 114%Z; 114%Z; 111%Z; 114%Z; 32%Z; 44%Z; 32%Z; 97%Z; 98%Z; 111%Z; 114%Z; 116%Z; 105%Z; 110%Z; 103%Z; 10%Z; 76%Z; 18%Z; 16%Z; 0%Z; 53%Z; 0%Z; 0%Z; 0%Z; 129%Z; 18%Z; 16%Z; 0%Z; 11%Z; 0%Z; 0%Z; 0%Z; 108%Z; 105%Z; 98%Z; 114%Z; 97%Z; 114%Z; 121%Z; 47%Z; 115%Z; 116%Z; 100%Z; 47%Z; 115%Z; 114%Z; 99%Z; 47%Z; 115%Z; 121%Z; 115%Z; 47%Z; 112%Z; 97%Z; 108%Z; 47%Z; 119%Z; 97%Z; 115%Z; 105%Z; 47%Z; 111%Z; 115%Z; 46%Z; 114%Z; 115%Z; 0%Z; 0%Z; 156%Z; 18%Z; 16%Z; 0%Z; 34%Z; 0%Z; 0%Z; 0%Z; 45%Z; 0%Z; 0%Z; 0%Z; 19%Z; 0%Z; 0%Z; 0%Z; 156%Z; 18%Z; 16%Z; 0%Z; 34%Z; 0%Z; 0%Z; 0%Z; 52%Z; 0%Z; 0%Z; 0%Z; 21%Z; 0%Z; 0%Z; 0%Z; 79%Z; 110%Z; 99%Z; 101%Z; 32%Z; 105%Z; 110%Z; 115%Z; 116%Z; 97%Z; 110%Z; 99%Z; 101%Z; 32%Z; 104%Z; 97%Z; 115%Z; 32%Z; 112%Z; 114%Z; 101%Z; 118%Z; 105%Z; 111%Z; 117%Z; 115%Z; 108%Z; 121%Z; 32%Z; 98%Z; 101%Z; 101%Z; 110%Z; 32%Z; 112%Z; 111%Z; 105%Z; 115%Z; 111%Z; 110%Z; 101%Z; 100%Z; 0%Z; 0%Z; 224%Z; 18%Z; 16%Z; 0%Z; 42%Z; 0%Z; 0%Z; 0%Z; 111%Z; 110%Z; 101%Z; 45%Z; 116%Z; 105%Z; 109%Z; 101%Z; 32%Z; 105%Z; 110%Z; 105%Z; 116%Z; 105%Z; 97%Z; 108%Z; 105%Z; 122%Z; 97%Z; 116%Z; 105%Z; 111%Z; 110%Z; 32%Z; 109%Z; 97%Z; 121%Z; 32%Z; 110%Z; 111%Z; 116%Z; 32%Z; 98%Z; 101%Z; 32%Z; 112%Z; 101%Z; 114%Z; 102%Z; 111%Z; 114%Z; 109%Z; 101%Z; 100%Z; 32%Z; 114%Z; 101%Z; 99%Z; 117%Z; 114%Z; 115%Z; 105%Z; 118%Z; 101%Z; 108%Z; 121%Z; 20%Z; 19%Z; 16%Z; 0%Z; 56%Z; 0%Z; 0%Z; 0%Z; 102%Z; 97%Z; 116%Z; 97%Z; 108%Z; 32%Z; 114%Z; 117%Z; 110%Z; 116%Z; 105%Z; 109%Z; 101%Z; 32%Z; 101%Z; 114%Z; 114%Z; 111%Z; 114%Z; 58%Z; 32%Z; 114%Z; 119%Z; 108%Z; 111%Z; 99%Z; 107%Z; 32%Z; 108%Z; 111%Z; 99%Z; 107%Z; 101%Z; 100%Z; 32%Z; 102%Z; 111%Z; 114%Z; 32%Z; 119%Z; 114%Z; 105%Z; 116%Z; 105%Z; 110%Z; 103%Z; 44%Z; 32%Z; 97%Z; 98%Z; 111%Z; 114%Z; 116%Z; 105%Z; 110%Z; 103%Z; 10%Z; 0%Z; 0%Z; 0%Z; 84%Z; 19%Z; 16%Z; 0%Z; 57%Z; 0%Z; 0%Z; 0%Z; 0%Z; 47%Z; 0%Z; 99%Z; 97%Z; 112%Z; 97%Z; 99%Z; 105%Z; 116%Z; 121%Z; 32%Z; 111%Z; 118%Z; 101%Z; 114%Z; 102%Z; 108%Z; 111%Z; 119%Z; 155%Z; 19%Z; 16%Z; 0%Z; 17%Z; 0%Z; 0%Z; 0%Z; 108%Z; 105%Z; 98%Z; 114%Z; 97%Z; 114%Z; 121%Z; 47%Z; 97%Z; 108%Z; 108%Z; 111%Z; 99%Z; 47%Z; 115%Z; 114%Z; 99%Z; 47%Z; 102%Z; 102%Z; 105%Z; 47%Z; 99%Z; 95%Z; 115%Z; 116%Z; 114%Z; 46%Z; 114%Z; 115%Z; 0%Z; 0%Z; 180%Z; 19%Z; 16%Z; 0%Z; 30%Z; 0%Z; 0%Z; 0%Z; 26%Z; 1%Z; 0%Z; 0%Z; 30%Z; 0%Z; 0%Z; 0%Z; 180%Z; 19%Z; 16%Z; 0%Z; 30%Z; 0%Z; 0%Z; 0%Z; 22%Z; 1%Z; 0%Z; 0%Z; 55%Z; 0%Z; 0%Z; 0%Z; 180%Z; 19%Z; 16%Z; 0%Z; 30%Z; 0%Z; 0%Z; 0%Z; 85%Z; 1%Z; 0%Z; 0%Z; 11%Z; 0%Z; 0%Z; 0%Z; 0%Z; 112%Z; 0%Z; 7%Z; 0%Z; 45%Z; 1%Z; 1%Z; 1%Z; 2%Z; 1%Z; 2%Z; 1%Z; 1%Z; 72%Z; 11%Z; 48%Z; 21%Z; 16%Z; 1%Z; 101%Z; 7%Z; 2%Z; 6%Z; 2%Z; 2%Z; 1%Z; 4%Z; 35%Z; 1%Z; 30%Z; 27%Z; 91%Z; 11%Z; 58%Z; 9%Z; 9%Z; 1%Z; 24%Z; 4%Z; 1%Z; 9%Z; 1%Z; 3%Z; 1%Z; 5%Z; 43%Z; 3%Z; 59%Z; 9%Z; 42%Z; 24%Z; 1%Z; 32%Z; 55%Z; 1%Z; 1%Z; 1%Z; 4%Z; 8%Z; 4%Z; 1%Z; 3%Z; 7%Z; 10%Z; 2%Z; 29%Z; 1%Z; 58%Z; 1%Z; 1%Z; 1%Z; 2%Z; 4%Z; 8%Z; 1%Z; 9%Z; 1%Z; 10%Z; 2%Z; 26%Z; 1%Z; 2%Z; 2%Z; 57%Z; 1%Z; 4%Z; 2%Z; 4%Z; 2%Z; 2%Z; 3%Z; 3%Z; 1%Z; 30%Z; 2%Z; 3%Z; 1%Z; 11%Z; 2%Z; 57%Z; 1%Z; 4%Z; 5%Z; 1%Z; 2%Z; 4%Z; 1%Z; 20%Z; 2%Z; 22%Z; 6%Z; 1%Z; 1%Z; 58%Z; 1%Z; 1%Z; 2%Z; 1%Z; 4%Z; 8%Z; 1%Z; 7%Z; 3%Z; 10%Z; 2%Z; 30%Z; 1%Z; 59%Z; 1%Z; 1%Z; 1%Z; 12%Z; 1%Z; 9%Z; 1%Z; 40%Z; 1%Z; 3%Z; 1%Z; 55%Z; 1%Z; 1%Z; 3%Z; 5%Z; 3%Z; 1%Z; 4%Z; 7%Z; 2%Z; 11%Z; 2%Z; 29%Z; 1%Z; 58%Z; 1%Z; 2%Z; 2%Z; 1%Z; 1%Z; 3%Z; 3%Z; 1%Z; 4%Z; 7%Z; 2%Z; 11%Z; 2%Z; 28%Z; 2%Z; 57%Z; 2%Z; 1%Z; 1%Z; 2%Z; 4%Z; 8%Z; 1%Z; 9%Z; 1%Z; 10%Z; 2%Z; 29%Z; 1%Z; 72%Z; 1%Z; 4%Z; 1%Z; 2%Z; 3%Z; 1%Z; 1%Z; 8%Z; 1%Z; 81%Z; 1%Z; 2%Z; 7%Z; 12%Z; 8%Z; 98%Z; 1%Z; 2%Z; 9%Z; 11%Z; 7%Z; 73%Z; 2%Z; 27%Z; 1%Z; 1%Z; 1%Z; 1%Z; 1%Z; 55%Z; 14%Z; 1%Z; 5%Z; 1%Z; 2%Z; 5%Z; 11%Z; 1%Z; 36%Z; 9%Z; 1%Z; 102%Z; 4%Z; 1%Z; 6%Z; 1%Z; 2%Z; 2%Z; 2%Z; 25%Z; 2%Z; 4%Z; 3%Z; 16%Z; 4%Z; 13%Z; 1%Z; 2%Z; 2%Z; 6%Z; 1%Z; 15%Z; 1%Z; 0%Z; 3%Z; 0%Z; 4%Z; 28%Z; 3%Z; 29%Z; 2%Z; 30%Z; 2%Z; 64%Z; 2%Z; 1%Z; 7%Z; 8%Z; 1%Z; 2%Z; 11%Z; 9%Z; 1%Z; 45%Z; 3%Z; 1%Z; 1%Z; 117%Z; 2%Z; 34%Z; 1%Z; 118%Z; 3%Z; 4%Z; 2%Z; 9%Z; 1%Z; 6%Z; 3%Z; 219%Z; 2%Z; 2%Z; 1%Z; 58%Z; 1%Z; 1%Z; 7%Z; 1%Z; 1%Z; 1%Z; 1%Z; 2%Z; 8%Z; 6%Z; 10%Z; 2%Z; 1%Z; 48%Z; 31%Z; 49%Z; 4%Z; 48%Z; 10%Z; 4%Z; 3%Z; 38%Z; 9%Z; 12%Z; 2%Z; 32%Z; 4%Z; 2%Z; 6%Z; 56%Z; 1%Z; 1%Z; 2%Z; 3%Z; 1%Z; 1%Z; 5%Z; 56%Z; 8%Z; 2%Z; 2%Z; 152%Z; 3%Z; 1%Z; 13%Z; 1%Z; 7%Z; 4%Z; 1%Z; 6%Z; 1%Z; 3%Z; 2%Z; 198%Z; 64%Z; 0%Z; 1%Z; 195%Z; 33%Z; 0%Z; 3%Z; 141%Z; 1%Z; 96%Z; 32%Z; 0%Z; 6%Z; 105%Z; 2%Z; 0%Z; 4%Z; 1%Z; 10%Z; 32%Z; 2%Z; 80%Z; 2%Z; 0%Z; 1%Z; 3%Z; 1%Z; 4%Z; 1%Z; 25%Z; 2%Z; 5%Z; 1%Z; 151%Z; 2%Z; 26%Z; 18%Z; 13%Z; 1%Z; 38%Z; 8%Z; 25%Z; 11%Z; 1%Z; 1%Z; 44%Z; 3%Z; 48%Z; 1%Z; 2%Z; 4%Z; 2%Z; 2%Z; 2%Z; 1%Z; 36%Z; 1%Z; 67%Z; 6%Z; 2%Z; 2%Z; 2%Z; 2%Z; 12%Z; 1%Z; 8%Z; 1%Z; 47%Z; 1%Z; 51%Z; 1%Z; 1%Z; 3%Z; 2%Z; 2%Z; 5%Z; 2%Z; 1%Z; 1%Z; 42%Z; 2%Z; 8%Z; 1%Z; 238%Z; 1%Z; 2%Z; 1%Z; 4%Z; 1%Z; 0%Z; 1%Z; 0%Z; 16%Z; 16%Z; 16%Z; 0%Z; 2%Z; 0%Z; 1%Z; 226%Z; 1%Z; 149%Z; 5%Z; 0%Z; 3%Z; 1%Z; 2%Z; 5%Z; 4%Z; 40%Z; 3%Z; 4%Z; 1%Z; 165%Z; 2%Z; 0%Z; 4%Z; 65%Z; 5%Z; 0%Z; 2%Z; 79%Z; 4%Z; 70%Z; 11%Z; 49%Z; 4%Z; 123%Z; 1%Z; 54%Z; 15%Z; 41%Z; 1%Z; 2%Z; 2%Z; 10%Z; 3%Z; 49%Z; 4%Z; 2%Z; 2%Z; 7%Z; 1%Z; 61%Z; 3%Z; 36%Z; 5%Z; 1%Z; 8%Z; 62%Z; 1%Z; 12%Z; 2%Z; 52%Z; 9%Z; 1%Z; 1%Z; 8%Z; 4%Z; 2%Z; 1%Z; 95%Z; 3%Z; 2%Z; 4%Z; 6%Z; 1%Z; 2%Z; 1%Z; 157%Z; 1%Z; 3%Z; 8%Z; 21%Z; 2%Z; 57%Z; 2%Z; 1%Z; 1%Z; 1%Z; 1%Z; 12%Z; 1%Z; 9%Z; 1%Z; 14%Z; 7%Z; 3%Z; 5%Z; 67%Z; 1%Z; 2%Z; 6%Z; 1%Z; 1%Z; 2%Z; 1%Z; 1%Z; 3%Z; 4%Z; 3%Z; 1%Z; 1%Z; 14%Z; 2%Z; 85%Z; 8%Z; 2%Z; 3%Z; 1%Z; 1%Z; 23%Z; 1%Z; 81%Z; 1%Z; 2%Z; 6%Z; 1%Z; 1%Z; 2%Z; 1%Z; 1%Z; 2%Z; 1%Z; 2%Z; 235%Z; 1%Z; 2%Z; 4%Z; 6%Z; 2%Z; 1%Z; 2%Z; 27%Z; 2%Z; 85%Z; 8%Z; 2%Z; 1%Z; 1%Z; 2%Z; 106%Z; 1%Z; 1%Z; 1%Z; 2%Z; 8%Z; 101%Z; 1%Z; 1%Z; 1%Z; 2%Z; 4%Z; 1%Z; 5%Z; 0%Z; 9%Z; 1%Z; 2%Z; 245%Z; 1%Z; 10%Z; 4%Z; 4%Z; 1%Z; 144%Z; 4%Z; 2%Z; 2%Z; 4%Z; 1%Z; 32%Z; 10%Z; 40%Z; 6%Z; 2%Z; 4%Z; 8%Z; 1%Z; 9%Z; 6%Z; 2%Z; 3%Z; 46%Z; 13%Z; 1%Z; 2%Z; 0%Z; 7%Z; 1%Z; 6%Z; 1%Z; 1%Z; 82%Z; 22%Z; 2%Z; 7%Z; 1%Z; 2%Z; 1%Z; 2%Z; 122%Z; 6%Z; 3%Z; 1%Z; 1%Z; 2%Z; 1%Z; 7%Z; 1%Z; 1%Z; 72%Z; 2%Z; 3%Z; 1%Z; 1%Z; 1%Z; 0%Z; 2%Z; 11%Z; 2%Z; 52%Z; 5%Z; 5%Z; 3%Z; 23%Z; 1%Z; 0%Z; 1%Z; 6%Z; 15%Z; 0%Z; 12%Z; 3%Z; 3%Z; 0%Z; 5%Z; 59%Z; 7%Z; 0%Z; 1%Z; 63%Z; 4%Z; 81%Z; 1%Z; 11%Z; 2%Z; 0%Z; 2%Z; 0%Z; 46%Z; 2%Z; 23%Z; 0%Z; 5%Z; 3%Z; 6%Z; 8%Z; 8%Z; 2%Z; 7%Z; 30%Z; 4%Z; 148%Z; 3%Z; 0%Z; 55%Z; 4%Z; 50%Z; 8%Z; 1%Z; 14%Z; 1%Z; 22%Z; 5%Z; 1%Z; 15%Z; 0%Z; 7%Z; 1%Z; 17%Z; 2%Z; 7%Z; 1%Z; 2%Z; 1%Z; 5%Z; 100%Z; 1%Z; 160%Z; 7%Z; 0%Z; 1%Z; 61%Z; 4%Z; 0%Z; 4%Z; 254%Z; 2%Z; 0%Z; 7%Z; 109%Z; 7%Z; 0%Z; 96%Z; 128%Z; 240%Z; 0%Z; 46%Z; 46%Z; 48%Z; 49%Z; 50%Z; 51%Z; 52%Z; 53%Z; 54%Z; 55%Z; 56%Z; 57%Z; 97%Z; 98%Z; 99%Z; 100%Z; 101%Z; 102%Z; 66%Z; 111%Z; 114%Z; 114%Z; 111%Z; 119%Z; 77%Z; 117%Z; 116%Z; 69%Z; 114%Z; 114%Z; 111%Z; 114%Z; 97%Z; 108%Z; 114%Z; 101%Z; 97%Z; 100%Z; 121%Z; 32%Z; 98%Z; 111%Z; 114%Z; 114%Z; 111%Z; 119%Z; 101%Z; 100%Z; 58%Z; 32%Z; 0%Z; 0%Z; 0%Z; 19%Z; 23%Z; 16%Z; 0%Z; 18%Z; 0%Z; 0%Z; 0%Z; 99%Z; 97%Z; 108%Z; 108%Z; 101%Z; 100%Z; 32%Z; 96%Z; 79%Z; 112%Z; 116%Z; 105%Z; 111%Z; 110%Z; 58%Z; 58%Z; 117%Z; 110%Z; 119%Z; 114%Z; 97%Z; 112%Z; 40%Z; 41%Z; 96%Z; 32%Z; 111%Z; 110%Z; 32%Z; 97%Z; 32%Z; 96%Z; 78%Z; 111%Z; 110%Z; 101%Z; 96%Z; 32%Z; 118%Z; 97%Z; 108%Z; 117%Z; 101%Z; 108%Z; 105%Z; 98%Z; 114%Z; 97%Z; 114%Z; 121%Z; 47%Z; 99%Z; 111%Z; 114%Z; 101%Z; 47%Z; 115%Z; 114%Z; 99%Z; 47%Z; 112%Z; 97%Z; 110%Z; 105%Z; 99%Z; 107%Z; 105%Z; 110%Z; 103%Z; 46%Z; 114%Z; 115%Z; 91%Z; 23%Z; 16%Z; 0%Z; 29%Z; 0%Z; 0%Z; 0%Z; 226%Z; 0%Z; 0%Z; 0%Z; 5%Z; 0%Z; 0%Z; 0%Z; 61%Z; 61%Z; 33%Z; 61%Z; 109%Z; 97%Z; 116%Z; 99%Z; 104%Z; 101%Z; 115%Z; 97%Z; 115%Z; 115%Z; 101%Z; 114%Z; 116%Z; 105%Z; 111%Z; 110%Z; 32%Z; 96%Z; 108%Z; 101%Z; 102%Z; 116%Z; 32%Z; 32%Z; 114%Z; 105%Z; 103%Z; 104%Z; 116%Z; 96%Z; 32%Z; 102%Z; 97%Z; 105%Z; 108%Z; 101%Z; 100%Z; 10%Z; 32%Z; 32%Z; 108%Z; 101%Z; 102%Z; 116%Z; 58%Z; 32%Z; 10%Z; 32%Z; 114%Z; 105%Z; 103%Z; 104%Z; 116%Z; 58%Z; 32%Z; 0%Z; 147%Z; 23%Z; 16%Z; 0%Z; 16%Z; 0%Z; 0%Z; 0%Z; 163%Z; 23%Z; 16%Z; 0%Z; 23%Z; 0%Z; 0%Z; 0%Z; 186%Z; 23%Z; 16%Z; 0%Z; 9%Z; 0%Z; 0%Z; 0%Z; 32%Z; 114%Z; 105%Z; 103%Z; 104%Z; 116%Z; 96%Z; 32%Z; 102%Z; 97%Z; 105%Z; 108%Z; 101%Z; 100%Z; 58%Z; 32%Z; 10%Z; 32%Z; 32%Z; 108%Z; 101%Z; 102%Z; 116%Z; 58%Z; 32%Z; 0%Z; 0%Z; 0%Z; 147%Z; 23%Z; 16%Z; 0%Z; 16%Z; 0%Z; 0%Z; 0%Z; 220%Z; 23%Z; 16%Z; 0%Z; 16%Z; 0%Z; 0%Z; 0%Z; 236%Z; 23%Z; 16%Z; 0%Z; 9%Z; 0%Z; 0%Z; 0%Z; 186%Z; 23%Z; 16%Z; 0%Z; 9%Z; 0%Z; 0%Z; 0%Z; 58%Z; 32%Z; 0%Z; 0%Z; 1%Z; 0%Z; 0%Z; 0%Z; 0%Z; 0%Z; 0%Z; 0%Z; 24%Z; 24%Z; 16%Z; 0%Z; 2%Z; 0%Z; 0%Z; 0%Z; 0%Z; 0%Z; 0%Z; 0%Z; 12%Z; 0%Z; 0%Z; 0%Z; 4%Z; 0%Z; 0%Z; 0%Z; 60%Z; 0%Z; 0%Z; 0%Z; 61%Z; 0%Z; 0%Z; 0%Z; 62%Z; 0%Z; 0%Z; 0%Z; 32%Z; 32%Z; 32%Z; 32%Z; 32%Z; 123%Z; 32%Z; 44%Z; 32%Z; 32%Z; 123%Z; 10%Z; 44%Z; 10%Z; 125%Z; 32%Z; 125%Z; 48%Z; 120%Z; 48%Z; 48%Z; 48%Z; 49%Z; 48%Z; 50%Z; 48%Z; 51%Z; 48%Z; 52%Z; 48%Z; 53%Z; 48%Z; 54%Z; 48%Z; 55%Z; 48%Z; 56%Z; 48%Z; 57%Z; 49%Z; 48%Z; 49%Z; 49%Z; 49%Z; 50%Z; 49%Z; 51%Z; 49%Z; 52%Z; 49%Z; 53%Z; 49%Z; 54%Z; 49%Z; 55%Z; 49%Z; 56%Z; 49%Z; 57%Z; 50%Z; 48%Z; 50%Z; 49%Z; 50%Z; 50%Z; 50%Z; 51%Z; 50%Z; 52%Z; 50%Z; 53%Z; 50%Z; 54%Z; 50%Z; 55%Z; 50%Z; 56%Z; 50%Z; 57%Z; 51%Z; 48%Z; 51%Z; 49%Z; 51%Z; 50%Z; 51%Z; 51%Z; 51%Z; 52%Z; 51%Z; 53%Z; 51%Z; 54%Z; 51%Z; 55%Z; 51%Z; 56%Z; 51%Z; 57%Z; 52%Z; 48%Z; 52%Z; 49%Z; 52%Z; 50%Z; 52%Z; 51%Z; 52%Z; 52%Z; 52%Z; 53%Z; 52%Z; 54%Z; 52%Z; 55%Z; 52%Z; 56%Z; 52%Z; 57%Z; 53%Z; 48%Z; 53%Z; 49%Z; 53%Z; 50%Z; 53%Z; 51%Z; 53%Z; 52%Z; 53%Z; 53%Z; 53%Z; 54%Z; 53%Z; 55%Z; 53%Z; 56%Z; 53%Z; 57%Z; 54%Z; 48%Z; 54%Z; 49%Z; 54%Z; 50%Z; 54%Z; 51%Z; 54%Z; 52%Z; 54%Z; 53%Z; 54%Z; 54%Z; 54%Z; 55%Z; 54%Z; 56%Z; 54%Z; 57%Z; 55%Z; 48%Z; 55%Z; 49%Z; 55%Z; 50%Z; 55%Z; 51%Z; 55%Z; 52%Z; 55%Z; 53%Z; 55%Z; 54%Z; 55%Z; 55%Z; 55%Z; 56%Z; 55%Z; 57%Z; 56%Z; 48%Z; 56%Z; 49%Z; 56%Z; 50%Z; 56%Z; 51%Z; 56%Z; 52%Z; 56%Z; 53%Z; 56%Z; 54%Z; 56%Z; 55%Z; 56%Z; 56%Z; 56%Z; 57%Z; 57%Z; 48%Z; 57%Z; 49%Z; 57%Z; 50%Z; 57%Z; 51%Z; 57%Z; 52%Z; 57%Z; 53%Z; 57%Z; 54%Z; 57%Z; 55%Z; 57%Z; 56%Z; 57%Z; 57%Z; 108%Z; 105%Z; 98%Z; 114%Z; 97%Z; 114%Z; 121%Z; 47%Z; 99%Z; 111%Z; 114%Z; 101%Z; 47%Z; 115%Z; 114%Z; 99%Z; 47%Z; 102%Z; 109%Z; 116%Z; 47%Z; 109%Z; 111%Z; 100%Z; 46%Z; 114%Z; 115%Z; 102%Z; 97%Z; 108%Z; 115%Z; 101%Z; 116%Z; 114%Z; 117%Z; 101%Z; 0%Z; 31%Z; 25%Z; 16%Z; 0%Z; 27%Z; 0%Z; 0%Z; 0%Z; 153%Z; 10%Z; 0%Z; 0%Z; 38%Z; 0%Z; 0%Z; 0%Z; 31%Z; 25%Z; 16%Z; 0%Z; 27%Z; 0%Z; 0%Z; 0%Z; 162%Z; 10%Z; 0%Z; 0%Z; 26%Z; 0%Z; 0%Z; 0%Z; 108%Z; 105%Z; 98%Z; 114%Z; 97%Z; 114%Z; 121%Z; 47%Z; 99%Z; 111%Z; 114%Z; 101%Z; 47%Z; 115%Z; 114%Z; 99%Z; 47%Z; 115%Z; 116%Z; 114%Z; 47%Z; 109%Z; 111%Z; 100%Z; 46%Z; 114%Z; 115%Z; 91%Z; 46%Z; 46%Z; 46%Z; 93%Z; 98%Z; 101%Z; 103%Z; 105%Z; 110%Z; 32%Z; 60%Z; 61%Z; 32%Z; 101%Z; 110%Z; 100%Z; 32%Z; 40%Z; 32%Z; 60%Z; 61%Z; 32%Z; 41%Z; 32%Z; 119%Z; 104%Z; 101%Z; 110%Z; 32%Z; 115%Z; 108%Z; 105%Z; 99%Z; 105%Z; 110%Z; 103%Z; 32%Z; 96%Z; 96%Z; 0%Z; 132%Z; 25%Z; 16%Z; 0%Z; 14%Z; 0%Z; 0%Z; 0%Z; 146%Z; 25%Z; 16%Z; 0%Z; 4%Z; 0%Z; 0%Z; 0%Z; 150%Z; 25%Z; 16%Z; 0%Z; 16%Z; 0%Z; 0%Z; 0%Z; 166%Z; 25%Z; 16%Z; 0%Z; 1%Z; 0%Z; 0%Z; 0%Z; 98%Z; 121%Z; 116%Z; 101%Z; 32%Z; 105%Z; 110%Z; 100%Z; 101%Z; 120%Z; 32%Z; 32%Z; 105%Z; 115%Z; 32%Z; 110%Z; 111%Z; 116%Z; 32%Z; 97%Z; 32%Z; 99%Z; 104%Z; 97%Z; 114%Z; 32%Z; 98%Z; 111%Z; 117%Z; 110%Z; 100%Z; 97%Z; 114%Z; 121%Z; 59%Z; 32%Z; 105%Z; 116%Z; 32%Z; 105%Z; 115%Z; 32%Z; 105%Z; 110%Z; 115%Z; 105%Z; 100%Z; 101%Z; 32%Z; 32%Z; 40%Z; 98%Z; 121%Z; 116%Z; 101%Z; 115%Z; 32%Z; 41%Z; 32%Z; 111%Z; 102%Z; 32%Z; 96%Z; 0%Z; 200%Z; 25%Z; 16%Z; 0%Z; 11%Z; 0%Z; 0%Z; 0%Z; 211%Z; 25%Z; 16%Z; 0%Z; 38%Z; 0%Z; 0%Z; 0%Z; 249%Z; 25%Z; 16%Z; 0%Z; 8%Z; 0%Z; 0%Z; 0%Z; 1%Z; 26%Z; 16%Z; 0%Z; 6%Z; 0%Z; 0%Z; 0%Z; 166%Z; 25%Z; 16%Z; 0%Z; 1%Z; 0%Z; 0%Z; 0%Z; 32%Z; 105%Z; 115%Z; 32%Z; 111%Z; 117%Z; 116%Z; 32%Z; 111%Z; 102%Z; 32%Z; 98%Z; 111%Z; 117%Z; 110%Z; 100%Z; 115%Z; 32%Z; 111%Z; 102%Z; 32%Z; 96%Z; 0%Z; 0%Z; 200%Z; 25%Z; 16%Z; 0%Z; 11%Z; 0%Z; 0%Z; 0%Z; 48%Z; 26%Z; 16%Z; 0%Z; 22%Z; 0%Z; 0%Z; 0%Z; 166%Z; 25%Z; 16%Z; 0%Z; 1%Z; 0%Z; 0%Z; 0%Z; 100%Z; 25%Z; 16%Z; 0%Z; 27%Z; 0%Z; 0%Z; 0%Z; 158%Z; 1%Z; 0%Z; 0%Z; 44%Z; 0%Z; 0%Z; 0%Z; 108%Z; 105%Z; 98%Z; 114%Z; 97%Z; 114%Z; 121%Z; 47%Z; 99%Z; 111%Z; 114%Z; 101%Z; 47%Z; 115%Z; 114%Z; 99%Z; 47%Z; 117%Z; 110%Z; 105%Z; 99%Z; 111%Z; 100%Z; 101%Z; 47%Z; 112%Z; 114%Z; 105%Z; 110%Z; 116%Z; 97%Z; 98%Z; 108%Z; 101%Z; 46%Z; 114%Z; 115%Z; 0%Z; 0%Z; 0%Z; 112%Z; 26%Z; 16%Z; 0%Z; 37%Z; 0%Z; 0%Z; 0%Z; 26%Z; 0%Z; 0%Z; 0%Z; 54%Z; 0%Z; 0%Z; 0%Z; 112%Z; 26%Z; 16%Z; 0%Z; 37%Z; 0%Z; 0%Z; 0%Z; 10%Z; 0%Z; 0%Z; 0%Z; 43%Z; 0%Z; 0%Z; 0%Z; 0%Z; 6%Z; 1%Z; 1%Z; 3%Z; 1%Z; 4%Z; 2%Z; 5%Z; 7%Z; 7%Z; 2%Z; 8%Z; 8%Z; 9%Z; 2%Z; 10%Z; 5%Z; 11%Z; 2%Z; 14%Z; 4%Z; 16%Z; 1%Z; 17%Z; 2%Z; 18%Z; 5%Z; 19%Z; 28%Z; 20%Z; 1%Z; 21%Z; 2%Z; 23%Z; 2%Z; 25%Z; 13%Z; 28%Z; 5%Z; 29%Z; 8%Z; 31%Z; 1%Z; 36%Z; 1%Z; 106%Z; 4%Z; 107%Z; 2%Z; 175%Z; 3%Z; 177%Z; 2%Z; 188%Z; 2%Z; 207%Z; 2%Z; 209%Z; 2%Z; 212%Z; 12%Z; 213%Z; 9%Z; 214%Z; 2%Z; 215%Z; 2%Z; 218%Z; 1%Z; 224%Z; 5%Z; 225%Z; 2%Z; 231%Z; 4%Z; 232%Z; 2%Z; 238%Z; 32%Z; 240%Z; 4%Z; 248%Z; 2%Z; 250%Z; 4%Z; 251%Z; 1%Z; 12%Z; 39%Z; 59%Z; 62%Z; 78%Z; 79%Z; 143%Z; 158%Z; 158%Z; 159%Z; 123%Z; 139%Z; 147%Z; 150%Z; 162%Z; 178%Z; 186%Z; 134%Z; 177%Z; 6%Z; 7%Z; 9%Z; 54%Z; 61%Z; 62%Z; 86%Z; 243%Z; 208%Z; 209%Z; 4%Z; 20%Z; 24%Z; 54%Z; 55%Z; 86%Z; 87%Z; 127%Z; 170%Z; 174%Z; 175%Z; 189%Z; 53%Z; 224%Z; 18%Z; 135%Z; 137%Z; 142%Z; 158%Z; 4%Z; 13%Z; 14%Z; 17%Z; 18%Z; 41%Z; 49%Z; 52%Z; 58%Z; 69%Z; 70%Z; 73%Z; 74%Z; 78%Z; 79%Z; 100%Z; 101%Z; 138%Z; 140%Z; 141%Z; 143%Z; 182%Z; 193%Z; 195%Z; 196%Z; 198%Z; 203%Z; 214%Z; 92%Z; 182%Z; 183%Z; 27%Z; 28%Z; 7%Z; 8%Z; 10%Z; 11%Z; 20%Z; 23%Z; 54%Z; 57%Z; 58%Z; 168%Z; 169%Z; 216%Z; 217%Z; 9%Z; 55%Z; 144%Z; 145%Z; 168%Z; 7%Z; 10%Z; 59%Z; 62%Z; 102%Z; 105%Z; 143%Z; 146%Z; 17%Z; 111%Z; 95%Z; 191%Z; 238%Z; 239%Z; 90%Z; 98%Z; 244%Z; 252%Z; 255%Z; 83%Z; 84%Z; 154%Z; 155%Z; 46%Z; 47%Z; 39%Z; 40%Z; 85%Z; 157%Z; 160%Z; 161%Z; 163%Z; 164%Z; 167%Z; 168%Z; 173%Z; 186%Z; 188%Z; 196%Z; 6%Z; 11%Z; 12%Z; 21%Z; 29%Z; 58%Z; 63%Z; 69%Z; 81%Z; 166%Z; 167%Z; 204%Z; 205%Z; 160%Z; 7%Z; 25%Z; 26%Z; 34%Z; 37%Z; 62%Z; 63%Z; 231%Z; 236%Z; 239%Z; 255%Z; 197%Z; 198%Z; 4%Z; 32%Z; 35%Z; 37%Z; 38%Z; 40%Z; 51%Z; 56%Z; 58%Z; 72%Z; 74%Z; 76%Z; 80%Z; 83%Z; 85%Z; 86%Z; 88%Z; 90%Z; 92%Z; 94%Z; 96%Z; 99%Z; 101%Z; 102%Z; 107%Z; 115%Z; 120%Z; 125%Z; 127%Z; 138%Z; 164%Z; 170%Z; 175%Z; 176%Z; 192%Z; 208%Z; 174%Z; 175%Z; 110%Z; 111%Z; 221%Z; 222%Z; 147%Z; 94%Z; 34%Z; 123%Z; 5%Z; 3%Z; 4%Z; 45%Z; 3%Z; 102%Z; 3%Z; 1%Z; 47%Z; 46%Z; 128%Z; 130%Z; 29%Z; 3%Z; 49%Z; 15%Z; 28%Z; 4%Z; 36%Z; 9%Z; 30%Z; 5%Z; 43%Z; 5%Z; 68%Z; 4%Z; 14%Z; 42%Z; 128%Z; 170%Z; 6%Z; 36%Z; 4%Z; 36%Z; 4%Z; 40%Z; 8%Z; 52%Z; 11%Z; 78%Z; 3%Z; 52%Z; 12%Z; 129%Z; 55%Z; 9%Z; 22%Z; 10%Z; 8%Z; 24%Z; 59%Z; 69%Z; 57%Z; 3%Z; 99%Z; 8%Z; 9%Z; 48%Z; 22%Z; 5%Z; 33%Z; 3%Z; 27%Z; 5%Z; 1%Z; 64%Z; 56%Z; 4%Z; 75%Z; 5%Z; 47%Z; 4%Z; 10%Z; 7%Z; 9%Z; 7%Z; 64%Z; 32%Z; 39%Z; 4%Z; 12%Z; 9%Z; 54%Z; 3%Z; 58%Z; 5%Z; 26%Z; 7%Z; 4%Z; 12%Z; 7%Z; 80%Z; 73%Z; 55%Z; 51%Z; 13%Z; 51%Z; 7%Z; 46%Z; 8%Z; 10%Z; 6%Z; 38%Z; 3%Z; 29%Z; 8%Z; 2%Z; 128%Z; 208%Z; 82%Z; 16%Z; 3%Z; 55%Z; 44%Z; 8%Z; 42%Z; 22%Z; 26%Z; 38%Z; 28%Z; 20%Z; 23%Z; 9%Z; 78%Z; 4%Z; 36%Z; 9%Z; 68%Z; 13%Z; 25%Z; 7%Z; 10%Z; 6%Z; 72%Z; 8%Z; 39%Z; 9%Z; 117%Z; 11%Z; 66%Z; 62%Z; 42%Z; 6%Z; 59%Z; 5%Z; 10%Z; 6%Z; 81%Z; 6%Z; 1%Z; 5%Z; 16%Z; 3%Z; 5%Z; 11%Z; 89%Z; 8%Z; 2%Z; 29%Z; 98%Z; 30%Z; 72%Z; 8%Z; 10%Z; 128%Z; 166%Z; 94%Z; 34%Z; 69%Z; 11%Z; 10%Z; 6%Z; 13%Z; 19%Z; 58%Z; 6%Z; 10%Z; 6%Z; 20%Z; 28%Z; 44%Z; 4%Z; 23%Z; 128%Z; 185%Z; 60%Z; 100%Z; 83%Z; 12%Z; 72%Z; 9%Z; 10%Z; 70%Z; 69%Z; 27%Z; 72%Z; 8%Z; 83%Z; 13%Z; 73%Z; 7%Z; 10%Z; 128%Z; 182%Z; 34%Z; 14%Z; 10%Z; 6%Z; 70%Z; 10%Z; 29%Z; 3%Z; 71%Z; 73%Z; 55%Z; 3%Z; 14%Z; 8%Z; 10%Z; 6%Z; 57%Z; 7%Z; 10%Z; 129%Z; 54%Z; 25%Z; 7%Z; 59%Z; 3%Z; 29%Z; 85%Z; 1%Z; 15%Z; 50%Z; 13%Z; 131%Z; 155%Z; 102%Z; 117%Z; 11%Z; 128%Z; 196%Z; 138%Z; 76%Z; 99%Z; 13%Z; 132%Z; 48%Z; 16%Z; 22%Z; 10%Z; 143%Z; 155%Z; 5%Z; 130%Z; 71%Z; 154%Z; 185%Z; 58%Z; 134%Z; 198%Z; 130%Z; 57%Z; 7%Z; 42%Z; 4%Z; 92%Z; 6%Z; 38%Z; 10%Z; 70%Z; 10%Z; 40%Z; 5%Z; 19%Z; 129%Z; 176%Z; 58%Z; 128%Z; 198%Z; 91%Z; 101%Z; 75%Z; 4%Z; 57%Z; 7%Z; 17%Z; 64%Z; 5%Z; 11%Z; 2%Z; 14%Z; 151%Z; 248%Z; 8%Z; 132%Z; 214%Z; 41%Z; 10%Z; 162%Z; 231%Z; 129%Z; 51%Z; 15%Z; 1%Z; 29%Z; 6%Z; 14%Z; 4%Z; 8%Z; 129%Z; 140%Z; 137%Z; 4%Z; 107%Z; 5%Z; 13%Z; 3%Z; 9%Z; 7%Z; 16%Z; 143%Z; 96%Z; 128%Z; 250%Z; 6%Z; 129%Z; 180%Z; 76%Z; 71%Z; 9%Z; 116%Z; 60%Z; 128%Z; 246%Z; 10%Z; 115%Z; 8%Z; 112%Z; 21%Z; 70%Z; 122%Z; 20%Z; 12%Z; 20%Z; 12%Z; 87%Z; 9%Z; 25%Z; 128%Z; 135%Z; 129%Z; 71%Z; 3%Z; 133%Z; 66%Z; 15%Z; 21%Z; 132%Z; 80%Z; 31%Z; 6%Z; 6%Z; 128%Z; 213%Z; 43%Z; 5%Z; 62%Z; 33%Z; 1%Z; 112%Z; 45%Z; 3%Z; 26%Z; 4%Z; 2%Z; 129%Z; 64%Z; 31%Z; 17%Z; 58%Z; 5%Z; 1%Z; 129%Z; 208%Z; 42%Z; 128%Z; 214%Z; 43%Z; 4%Z; 1%Z; 129%Z; 224%Z; 128%Z; 247%Z; 41%Z; 76%Z; 4%Z; 10%Z; 4%Z; 2%Z; 131%Z; 17%Z; 68%Z; 76%Z; 61%Z; 128%Z; 194%Z; 60%Z; 6%Z; 1%Z; 4%Z; 85%Z; 5%Z; 27%Z; 52%Z; 2%Z; 129%Z; 14%Z; 44%Z; 4%Z; 100%Z; 12%Z; 86%Z; 10%Z; 128%Z; 174%Z; 56%Z; 29%Z; 13%Z; 44%Z; 4%Z; 9%Z; 7%Z; 2%Z; 14%Z; 6%Z; 128%Z; 154%Z; 131%Z; 216%Z; 4%Z; 17%Z; 3%Z; 13%Z; 3%Z; 119%Z; 4%Z; 95%Z; 6%Z; 12%Z; 4%Z; 1%Z; 15%Z; 12%Z; 4%Z; 56%Z; 8%Z; 10%Z; 6%Z; 40%Z; 8%Z; 44%Z; 4%Z; 2%Z; 62%Z; 129%Z; 84%Z; 12%Z; 29%Z; 3%Z; 10%Z; 5%Z; 56%Z; 7%Z; 28%Z; 6%Z; 9%Z; 7%Z; 128%Z; 250%Z; 132%Z; 6%Z; 0%Z; 1%Z; 3%Z; 5%Z; 5%Z; 6%Z; 6%Z; 2%Z; 7%Z; 6%Z; 8%Z; 7%Z; 9%Z; 17%Z; 10%Z; 28%Z; 11%Z; 25%Z; 12%Z; 26%Z; 13%Z; 16%Z; 14%Z; 12%Z; 15%Z; 4%Z; 16%Z; 3%Z; 18%Z; 18%Z; 19%Z; 9%Z; 22%Z; 1%Z; 23%Z; 4%Z; 24%Z; 1%Z; 25%Z; 3%Z; 26%Z; 7%Z; 27%Z; 1%Z; 28%Z; 2%Z; 31%Z; 22%Z; 32%Z; 3%Z; 43%Z; 3%Z; 45%Z; 11%Z; 46%Z; 1%Z; 48%Z; 4%Z; 49%Z; 2%Z; 50%Z; 1%Z; 167%Z; 4%Z; 169%Z; 2%Z; 170%Z; 4%Z; 171%Z; 8%Z; 250%Z; 2%Z; 251%Z; 5%Z; 253%Z; 2%Z; 254%Z; 3%Z; 255%Z; 9%Z; 173%Z; 120%Z; 121%Z; 139%Z; 141%Z; 162%Z; 48%Z; 87%Z; 88%Z; 139%Z; 140%Z; 144%Z; 28%Z; 221%Z; 14%Z; 15%Z; 75%Z; 76%Z; 251%Z; 252%Z; 46%Z; 47%Z; 63%Z; 92%Z; 93%Z; 95%Z; 226%Z; 132%Z; 141%Z; 142%Z; 145%Z; 146%Z; 169%Z; 177%Z; 186%Z; 187%Z; 197%Z; 198%Z; 201%Z; 202%Z; 222%Z; 228%Z; 229%Z; 255%Z; 0%Z; 4%Z; 17%Z; 18%Z; 41%Z; 49%Z; 52%Z; 55%Z; 58%Z; 59%Z; 61%Z; 73%Z; 74%Z; 93%Z; 132%Z; 142%Z; 146%Z; 169%Z; 177%Z; 180%Z; 186%Z; 187%Z; 198%Z; 202%Z; 206%Z; 207%Z; 228%Z; 229%Z; 0%Z; 4%Z; 13%Z; 14%Z; 17%Z; 18%Z; 41%Z; 49%Z; 52%Z; 58%Z; 59%Z; 69%Z; 70%Z; 73%Z; 74%Z; 94%Z; 100%Z; 101%Z; 132%Z; 145%Z; 155%Z; 157%Z; 201%Z; 206%Z; 207%Z; 13%Z; 17%Z; 41%Z; 58%Z; 59%Z; 69%Z; 73%Z; 87%Z; 91%Z; 92%Z; 94%Z; 95%Z; 100%Z; 101%Z; 141%Z; 145%Z; 169%Z; 180%Z; 186%Z; 187%Z; 197%Z; 201%Z; 223%Z; 228%Z; 229%Z; 240%Z; 13%Z; 17%Z; 69%Z; 73%Z; 100%Z; 101%Z; 128%Z; 132%Z; 178%Z; 188%Z; 190%Z; 191%Z; 213%Z; 215%Z; 240%Z; 241%Z; 131%Z; 133%Z; 139%Z; 164%Z; 166%Z; 190%Z; 191%Z; 197%Z; 199%Z; 207%Z; 218%Z; 219%Z; 72%Z; 152%Z; 189%Z; 205%Z; 198%Z; 206%Z; 207%Z; 73%Z; 78%Z; 79%Z; 87%Z; 89%Z; 94%Z; 95%Z; 137%Z; 142%Z; 143%Z; 177%Z; 182%Z; 183%Z; 191%Z; 193%Z; 198%Z; 199%Z; 215%Z; 17%Z; 22%Z; 23%Z; 91%Z; 92%Z; 246%Z; 247%Z; 254%Z; 255%Z; 128%Z; 109%Z; 113%Z; 222%Z; 223%Z; 14%Z; 31%Z; 110%Z; 111%Z; 28%Z; 29%Z; 95%Z; 125%Z; 126%Z; 174%Z; 175%Z; 77%Z; 187%Z; 188%Z; 22%Z; 23%Z; 30%Z; 31%Z; 70%Z; 71%Z; 78%Z; 79%Z; 88%Z; 90%Z; 92%Z; 94%Z; 126%Z; 127%Z; 181%Z; 197%Z; 212%Z; 213%Z; 220%Z; 240%Z; 241%Z; 245%Z; 114%Z; 115%Z; 143%Z; 116%Z; 117%Z; 150%Z; 38%Z; 46%Z; 47%Z; 167%Z; 175%Z; 183%Z; 191%Z; 199%Z; 207%Z; 215%Z; 223%Z; 154%Z; 0%Z; 64%Z; 151%Z; 152%Z; 48%Z; 143%Z; 31%Z; 206%Z; 207%Z; 210%Z; 212%Z; 206%Z; 255%Z; 78%Z; 79%Z; 90%Z; 91%Z; 7%Z; 8%Z; 15%Z; 16%Z; 39%Z; 47%Z; 238%Z; 239%Z; 110%Z; 111%Z; 55%Z; 61%Z; 63%Z; 66%Z; 69%Z; 144%Z; 145%Z; 83%Z; 103%Z; 117%Z; 200%Z; 201%Z; 208%Z; 209%Z; 216%Z; 217%Z; 231%Z; 254%Z; 255%Z; 0%Z; 32%Z; 95%Z; 34%Z; 130%Z; 223%Z; 4%Z; 130%Z; 68%Z; 8%Z; 27%Z; 4%Z; 6%Z; 17%Z; 129%Z; 172%Z; 14%Z; 128%Z; 171%Z; 5%Z; 31%Z; 8%Z; 129%Z; 28%Z; 3%Z; 25%Z; 8%Z; 1%Z; 4%Z; 47%Z; 4%Z; 52%Z; 4%Z; 7%Z; 3%Z; 1%Z; 7%Z; 6%Z; 7%Z; 17%Z; 10%Z; 80%Z; 15%Z; 18%Z; 7%Z; 85%Z; 7%Z; 3%Z; 4%Z; 28%Z; 10%Z; 9%Z; 3%Z; 8%Z; 3%Z; 7%Z; 3%Z; 2%Z; 3%Z; 3%Z; 3%Z; 12%Z; 4%Z; 5%Z; 3%Z; 11%Z; 6%Z; 1%Z; 14%Z; 21%Z; 5%Z; 78%Z; 7%Z; 27%Z; 7%Z; 87%Z; 7%Z; 2%Z; 6%Z; 23%Z; 12%Z; 80%Z; 4%Z; 67%Z; 3%Z; 45%Z; 3%Z; 1%Z; 4%Z; 17%Z; 6%Z; 15%Z; 12%Z; 58%Z; 4%Z; 29%Z; 37%Z; 95%Z; 32%Z; 109%Z; 4%Z; 106%Z; 37%Z; 128%Z; 200%Z; 5%Z; 130%Z; 176%Z; 3%Z; 26%Z; 6%Z; 130%Z; 253%Z; 3%Z; 89%Z; 7%Z; 22%Z; 9%Z; 24%Z; 9%Z; 20%Z; 12%Z; 20%Z; 12%Z; 106%Z; 6%Z; 10%Z; 6%Z; 26%Z; 6%Z; 89%Z; 7%Z; 43%Z; 5%Z; 70%Z; 10%Z; 44%Z; 4%Z; 12%Z; 4%Z; 1%Z; 3%Z; 49%Z; 11%Z; 44%Z; 4%Z; 26%Z; 6%Z; 11%Z; 3%Z; 128%Z; 172%Z; 6%Z; 10%Z; 6%Z; 47%Z; 49%Z; 128%Z; 244%Z; 8%Z; 60%Z; 3%Z; 15%Z; 3%Z; 62%Z; 5%Z; 56%Z; 8%Z; 43%Z; 5%Z; 130%Z; 255%Z; 17%Z; 24%Z; 8%Z; 47%Z; 17%Z; 45%Z; 3%Z; 33%Z; 15%Z; 33%Z; 15%Z; 128%Z; 140%Z; 4%Z; 130%Z; 154%Z; 22%Z; 11%Z; 21%Z; 136%Z; 148%Z; 5%Z; 47%Z; 5%Z; 59%Z; 7%Z; 2%Z; 14%Z; 24%Z; 9%Z; 128%Z; 190%Z; 34%Z; 116%Z; 12%Z; 128%Z; 214%Z; 26%Z; 129%Z; 16%Z; 5%Z; 128%Z; 225%Z; 9%Z; 242%Z; 158%Z; 3%Z; 55%Z; 9%Z; 129%Z; 92%Z; 20%Z; 128%Z; 184%Z; 8%Z; 128%Z; 221%Z; 21%Z; 59%Z; 3%Z; 10%Z; 6%Z; 56%Z; 8%Z; 70%Z; 8%Z; 12%Z; 6%Z; 116%Z; 11%Z; 30%Z; 3%Z; 90%Z; 4%Z; 89%Z; 9%Z; 128%Z; 131%Z; 24%Z; 28%Z; 10%Z; 22%Z; 9%Z; 76%Z; 4%Z; 128%Z; 138%Z; 6%Z; 171%Z; 164%Z; 12%Z; 23%Z; 4%Z; 49%Z; 161%Z; 4%Z; 129%Z; 218%Z; 38%Z; 7%Z; 12%Z; 5%Z; 5%Z; 128%Z; 166%Z; 16%Z; 129%Z; 245%Z; 7%Z; 1%Z; 32%Z; 42%Z; 6%Z; 76%Z; 4%Z; 128%Z; 141%Z; 4%Z; 128%Z; 190%Z; 3%Z; 27%Z; 3%Z; 15%Z; 13%Z; 114%Z; 97%Z; 110%Z; 103%Z; 101%Z; 32%Z; 115%Z; 116%Z; 97%Z; 114%Z; 116%Z; 32%Z; 105%Z; 110%Z; 100%Z; 101%Z; 120%Z; 32%Z; 32%Z; 111%Z; 117%Z; 116%Z; 32%Z; 111%Z; 102%Z; 32%Z; 114%Z; 97%Z; 110%Z; 103%Z; 101%Z; 32%Z; 102%Z; 111%Z; 114%Z; 32%Z; 115%Z; 108%Z; 105%Z; 99%Z; 101%Z; 32%Z; 111%Z; 102%Z; 32%Z; 108%Z; 101%Z; 110%Z; 103%Z; 116%Z; 104%Z; 32%Z; 0%Z; 0%Z; 0%Z; 97%Z; 32%Z; 16%Z; 0%Z; 18%Z; 0%Z; 0%Z; 0%Z; 115%Z; 32%Z; 16%Z; 0%Z; 34%Z; 0%Z; 0%Z; 0%Z; 114%Z; 97%Z; 110%Z; 103%Z; 101%Z; 32%Z; 101%Z; 110%Z; 100%Z; 32%Z; 105%Z; 110%Z; 100%Z; 101%Z; 120%Z; 32%Z; 168%Z; 32%Z; 16%Z; 0%Z; 16%Z; 0%Z; 0%Z; 0%Z; 115%Z; 32%Z; 16%Z; 0%Z; 34%Z; 0%Z; 0%Z; 0%Z; 115%Z; 108%Z; 105%Z; 99%Z; 101%Z; 32%Z; 105%Z; 110%Z; 100%Z; 101%Z; 120%Z; 32%Z; 115%Z; 116%Z; 97%Z; 114%Z; 116%Z; 115%Z; 32%Z; 97%Z; 116%Z; 32%Z; 32%Z; 98%Z; 117%Z; 116%Z; 32%Z; 101%Z; 110%Z; 100%Z; 115%Z; 32%Z; 97%Z; 116%Z; 32%Z; 0%Z; 200%Z; 32%Z; 16%Z; 0%Z; 22%Z; 0%Z; 0%Z; 0%Z; 222%Z; 32%Z; 16%Z; 0%Z; 13%Z; 0%Z; 0%Z; 0%Z; 0%Z; 3%Z; 0%Z; 0%Z; 131%Z; 4%Z; 32%Z; 0%Z; 145%Z; 5%Z; 96%Z; 0%Z; 93%Z; 19%Z; 160%Z; 0%Z; 18%Z; 23%Z; 32%Z; 31%Z; 12%Z; 32%Z; 96%Z; 31%Z; 239%Z; 44%Z; 32%Z; 43%Z; 42%Z; 48%Z; 160%Z; 43%Z; 111%Z; 166%Z; 96%Z; 44%Z; 2%Z; 168%Z; 224%Z; 44%Z; 30%Z; 251%Z; 224%Z; 45%Z; 0%Z; 254%Z; 32%Z; 54%Z; 158%Z; 255%Z; 96%Z; 54%Z; 253%Z; 1%Z; 225%Z; 54%Z; 1%Z; 10%Z; 33%Z; 55%Z; 36%Z; 13%Z; 225%Z; 55%Z; 171%Z; 14%Z; 97%Z; 57%Z; 47%Z; 24%Z; 225%Z; 57%Z; 48%Z; 28%Z; 225%Z; 74%Z; 243%Z; 30%Z; 225%Z; 78%Z; 64%Z; 52%Z; 161%Z; 82%Z; 30%Z; 97%Z; 225%Z; 83%Z; 240%Z; 106%Z; 97%Z; 84%Z; 79%Z; 111%Z; 225%Z; 84%Z; 157%Z; 188%Z; 97%Z; 85%Z; 0%Z; 207%Z; 97%Z; 86%Z; 101%Z; 209%Z; 161%Z; 86%Z; 0%Z; 218%Z; 33%Z; 87%Z; 0%Z; 224%Z; 161%Z; 88%Z; 174%Z; 226%Z; 33%Z; 90%Z; 236%Z; 228%Z; 225%Z; 91%Z; 208%Z; 232%Z; 97%Z; 92%Z; 32%Z; 0%Z; 238%Z; 92%Z; 240%Z; 1%Z; 127%Z; 93%Z; 136%Z; 23%Z; 16%Z; 0%Z; 138%Z; 23%Z; 16%Z; 0%Z; 140%Z; 23%Z; 16%Z; 0%Z; 2%Z; 0%Z; 0%Z; 0%Z; 2%Z; 0%Z; 0%Z; 0%Z; 7%Z; 0%Z; 0%Z; 0%Z]; ds_mode := MActive 0 [CVal (VI32 1048576%Z)] |}; Some {| ds_bytes := [1%Z; 0%Z; 0%Z; 0%Z; 255%Z; 255%Z; 255%Z; 255%Z; 153%Z; 19%Z; 16%Z; 0%Z]; ds_mode := MActive 0 [CVal (VI32 1057180%Z)] |}];
    POther;
    POther;
    POther ].
