(** GENERATED by tools/wat2coq.py from /repo/clar2wasm/src/standard/standard.wat. Do not edit.
    The instruction lists are the unfolded bodies of the functions of that file. *)
From Coq Require Import ZArith String List.
Import ListNotations.
From Verif Require Import Wasm.
Open Scope Z_scope.

(** [stdlib.runtime-error]: /repo/clar2wasm/src/standard/standard.wat lines 403-407
    locals: 0=error_code *)
Definition f_runtime_error : func := mkfunc [T32] [] [] [
  LGet 0; GSet "runtime-error-code"%string; Unreachable
].

(** [stdlib.add-int128]: /repo/clar2wasm/src/standard/standard.wat lines 410-418
    locals: 0=a_lo, 1=a_hi, 2=b_lo, 3=b_hi *)
Definition f_add_int128 : func := mkfunc [T64; T64; T64; T64] [] [T64; T64] [
  LGet 0; LGet 2; B64 Add; LTee 2; LGet 0; LGet 2; R64 GtU; ExtU; LGet 1; LGet 3; B64 Add; B64 Add
].

(** [stdlib.add-int]: /repo/clar2wasm/src/standard/standard.wat lines 420-444
    locals: 0=a_lo, 1=a_hi, 2=b_lo, 3=b_hi, 4=sum_hi, 5=sum_lo *)
Definition f_add_int : func := mkfunc [T64; T64; T64; T64] [T64; T64] [T64; T64] [
  LGet 0; LGet 1; LGet 2; LGet 3; Call "stdlib.add-int128"%string; LSet 4; LSet 5; LGet 1;
  Const (VI64 63); B64 ShrS; LGet 3; Const (VI64 63); B64 ShrS; R64 Eq;
  If 0 0 [
    LGet 1; Const (VI64 63); B64 ShrS; LGet 4; Const (VI64 63); B64 ShrS; R64 Ne;
    If 0 0 [
      Const (VI32 0); Call "stdlib.runtime-error"%string
    ] [
    ]
  ] [
  ];
  LGet 5; LGet 4; Return
].

(** [stdlib.add-uint]: /repo/clar2wasm/src/standard/standard.wat lines 446-457
    locals: 0=a_lo, 1=a_hi, 2=b_lo, 3=b_hi *)
Definition f_add_uint : func := mkfunc [T64; T64; T64; T64] [] [T64; T64] [
  LGet 0; LGet 1; LGet 2; LGet 3; Call "stdlib.add-int128"%string; LSet 1; LSet 0; LGet 0; LGet 1;
  LGet 2; LGet 3; Call "stdlib.lt-uint"%string;
  If 0 0 [
    Const (VI32 0); Call "stdlib.runtime-error"%string
  ] [
  ];
  LGet 0; LGet 1
].

(** [stdlib.sub-int128]: /repo/clar2wasm/src/standard/standard.wat lines 460-476
    locals: 0=a_lo, 1=a_hi, 2=b_lo, 3=b_hi, 4=borrow, 5=diff_lo, 6=diff_hi *)
Definition f_sub_int128 : func := mkfunc [T64; T64; T64; T64] [T64; T64; T64] [T64; T64] [
  LGet 0; LGet 2; R64 LtU; ExtU; LSet 4; LGet 0; LGet 2; B64 Sub; LSet 5; LGet 1; LGet 3; B64 Sub;
  LGet 4; B64 Sub; LSet 6; LGet 5; LGet 6; Return
].

(** [stdlib.sub-int]: /repo/clar2wasm/src/standard/standard.wat lines 478-502
    locals: 0=a_lo, 1=a_hi, 2=b_lo, 3=b_hi, 4=diff_hi, 5=diff_lo *)
Definition f_sub_int : func := mkfunc [T64; T64; T64; T64] [T64; T64] [T64; T64] [
  LGet 0; LGet 1; LGet 2; LGet 3; Call "stdlib.sub-int128"%string; LSet 4; LSet 5; LGet 1;
  Const (VI64 63); B64 ShrS; LGet 3; Const (VI64 63); B64 ShrS; R64 Ne;
  If 0 0 [
    LGet 1; Const (VI64 63); B64 ShrS; LGet 4; Const (VI64 63); B64 ShrS; R64 Ne;
    If 0 0 [
      Const (VI32 1); Call "stdlib.runtime-error"%string
    ] [
    ]
  ] [
  ];
  LGet 5; LGet 4; Return
].

(** [stdlib.sub-uint]: /repo/clar2wasm/src/standard/standard.wat lines 504-524
    locals: 0=a_lo, 1=a_hi, 2=b_lo, 3=b_hi, 4=diff_hi, 5=diff_lo *)
Definition f_sub_uint : func := mkfunc [T64; T64; T64; T64] [T64; T64] [T64; T64] [
  LGet 0; LGet 1; LGet 2; LGet 3; Call "stdlib.sub-int128"%string; LSet 4; LSet 5; LGet 4; LGet 1;
  R64 GtU;
  If 0 0 [
    Const (VI32 1); Call "stdlib.runtime-error"%string
  ] [
  ];
  LGet 5; LGet 4; Return
].

(** [stdlib.mul-int128]: /repo/clar2wasm/src/standard/standard.wat lines 526-568
    locals: 0=a_lo, 1=a_hi, 2=b_lo, 3=b_hi, 4=u2, 5=v2, 6=t1, 7=t2, 8=t3 *)
Definition f_mul_int128 : func := mkfunc [T64; T64; T64; T64] [T64; T64; T64; T64; T64] [T64; T64] [
  LGet 0; Const (VI64 4294967295); B64 And; LTee 5; LGet 2; Const (VI64 4294967295); B64 And;
  LTee 4; B64 Mul; LTee 6; Const (VI64 32); B64 ShrU; LGet 4; LGet 0; Const (VI64 32); B64 ShrU;
  LTee 4; B64 Mul; B64 Add; LTee 7; Const (VI64 4294967295); B64 And; LGet 5; LGet 2;
  Const (VI64 32); B64 ShrU; LTee 5; B64 Mul; B64 Add; LTee 8; Const (VI64 32); B64 Shl; LGet 6;
  Const (VI64 4294967295); B64 And; B64 Or; LGet 0; LGet 3; B64 Mul; LGet 1; LGet 2; B64 Mul;
  B64 Add; LGet 5; LGet 4; B64 Mul; B64 Add; LGet 7; Const (VI64 32); B64 ShrU; B64 Add; LGet 8;
  Const (VI64 32); B64 ShrU; B64 Add
].

(** [stdlib.mul-uint]: /repo/clar2wasm/src/standard/standard.wat lines 570-637
    locals: 0=a_lo, 1=a_hi, 2=b_lo, 3=b_hi, 4=tmp *)
Definition f_mul_uint : func := mkfunc [T64; T64; T64; T64] [T32] [T64; T64] [
  LGet 0; LGet 1; Call "clz-int128"%string; LGet 2; LGet 3; Call "clz-int128"%string; B32 Add;
  LSet 4; LGet 4; Const (VI32 128); R32 GeU;
  If 0 0 [
    LGet 0; LGet 1; LGet 2; LGet 3; Call "stdlib.mul-int128"%string; Return
  ] [
  ];
  LGet 4; Const (VI32 126); R32 LeU;
  If 0 0 [
    Const (VI32 0); Call "stdlib.runtime-error"%string
  ] [
  ];
  LGet 2; Const (VI64 1); B64 And; Wrap; LSet 4; LGet 3; Const (VI64 63); B64 Shl; LGet 2;
  Const (VI64 1); B64 ShrU; B64 Or; LGet 3; Const (VI64 1); B64 ShrU; LGet 0; LGet 1;
  Call "stdlib.mul-int128"%string; LSet 3; LSet 2; LGet 3; Const (VI64 0); R64 LtS;
  If 0 0 [
    Const (VI32 0); Call "stdlib.runtime-error"%string
  ] [
  ];
  LGet 3; Const (VI64 1); B64 Shl; LGet 2; Const (VI64 63); B64 ShrU; B64 Or; LSet 3; LGet 2;
  Const (VI64 1); B64 Shl; LSet 2; LGet 4;
  If 0 0 [
    LGet 2; LGet 3; LGet 0; LGet 1; Call "stdlib.add-uint"%string; LSet 3; LSet 2
  ] [
  ];
  LGet 2; LGet 3
].

(** [stdlib.mul-int]: /repo/clar2wasm/src/standard/standard.wat lines 639-705
    locals: 0=a_lo, 1=a_hi, 2=b_lo, 3=b_hi, 4=sign *)
Definition f_mul_int : func := mkfunc [T64; T64; T64; T64] [T32] [T64; T64] [
  LGet 1; LGet 0; Const (VI64 1); B64 Xor; B64 Or; Eqz64;
  If 0 0 [
    LGet 2; LGet 3; Return
  ] [
  ];
  LGet 3; LGet 2; Const (VI64 1); B64 Xor; B64 Or; Eqz64;
  If 0 0 [
    LGet 0; LGet 1; Return
  ] [
  ];
  Const (VI64 0); LGet 0; B64 Sub; LGet 0; LGet 1; Const (VI64 0); R64 LtS; LTee 4; Select;
  Const (VI64 0); LGet 1; LGet 0; Const (VI64 0); R64 Ne; ExtU; B64 Add; B64 Sub; LGet 1; LGet 4;
  Select; Const (VI64 0); LGet 2; B64 Sub; LGet 2; LGet 3; Const (VI64 0); R64 LtS; LTee 4; Select;
  Const (VI64 0); LGet 3; LGet 2; Const (VI64 0); R64 Ne; ExtU; B64 Add; B64 Sub; LGet 3; LGet 4;
  Select; LGet 1; Const (VI64 0); R64 LtS; LGet 4; B32 Xor; LSet 4; Call "stdlib.mul-uint"%string;
  LSet 1; LSet 0; LGet 1; Const (VI64 0); R64 LtS;
  If 0 0 [
    Const (VI32 0); Call "stdlib.runtime-error"%string
  ] [
  ];
  Const (VI64 0); LGet 0; B64 Sub; LGet 0; LGet 4; Select; Const (VI64 0); LGet 1; LGet 0;
  Const (VI64 0); R64 Ne; ExtU; B64 Add; B64 Sub; LGet 1; LGet 4; Select
].

(** [stdlib.div-int128]: /repo/clar2wasm/src/standard/standard.wat lines 707-778
    locals: 0=dividend_lo, 1=dividend_hi, 2=divisor_lo, 3=divisor_hi, 4=quotient_hi, 5=quotient_lo, 6=remainder_hi, 7=remainder_lo, 8=current_bit *)
Definition f_div_int128 : func := mkfunc [T64; T64; T64; T64] [T64; T64; T64; T64; T64] [T64; T64; T64; T64] [
  LGet 3; LGet 2; B64 Or; Eqz64;
  If 0 0 [
    Const (VI32 2); Call "stdlib.runtime-error"%string
  ] [
  ];
  Const (VI64 0); LSet 4; Const (VI64 0); LSet 5; Const (VI64 0); LSet 6; Const (VI64 0); LSet 7;
  Const (VI64 127); LSet 8;
  Loop 0 0 [
    LGet 6; Const (VI64 1); B64 Shl; LGet 7; Const (VI64 63); B64 ShrU; B64 Or; LSet 6; LGet 7;
    Const (VI64 1); B64 Shl; LGet 1; Const (VI64 63); B64 ShrU; B64 Or; LSet 7; LGet 1;
    Const (VI64 1); B64 Shl; LGet 0; Const (VI64 63); B64 ShrU; B64 Or; LSet 1; LGet 0;
    Const (VI64 1); B64 Shl; LSet 0; LGet 6; LGet 3; R64 GtU; LGet 6; LGet 3; R64 Eq; LGet 7;
    LGet 2; R64 GeU; B32 And; B32 Or;
    If 0 0 [
      LGet 7; LGet 6; LGet 2; LGet 3; Call "stdlib.sub-int128"%string; LSet 6; LSet 7; LGet 8;
      Const (VI64 64); R64 LtU;
      If 0 0 [
        LGet 5; Const (VI64 1); LGet 8; B64 Shl; B64 Or; LSet 5
      ] [
        LGet 4; Const (VI64 1); LGet 8; Const (VI64 64); B64 Sub; B64 Shl; B64 Or; LSet 4
      ]
    ] [
    ];
    LGet 8; Const (VI64 1); B64 Sub; LSet 8; LGet 8; Const (VI64 0); R64 GeS; BrIf 0
  ];
  LGet 5; LGet 4; LGet 7; LGet 6; Return
].

(** [stdlib.div-uint]: /repo/clar2wasm/src/standard/standard.wat lines 780-793
    locals: 0=dividend_lo, 1=dividend_hi, 2=divisor_lo, 3=divisor_hi, 4=quotient_hi, 5=quotient_lo, 6=remainder_hi, 7=remainder_lo *)
Definition f_div_uint : func := mkfunc [T64; T64; T64; T64] [T64; T64; T64; T64] [T64; T64] [
  LGet 0; LGet 1; LGet 2; LGet 3; Call "stdlib.div-int128"%string; LSet 6; LSet 7; LSet 4; LSet 5;
  LGet 5; LGet 4; Return
].

(** [stdlib.div-int]: /repo/clar2wasm/src/standard/standard.wat lines 795-850
    locals: 0=dividend_lo, 1=dividend_hi, 2=divisor_lo, 3=divisor_hi, 4=quotient_hi, 5=quotient_lo, 6=remainder_hi, 7=remainder_lo, 8=sign_dividend, 9=sign_divisor, 10=expected_sign *)
Definition f_div_int : func := mkfunc [T64; T64; T64; T64] [T64; T64; T64; T64; T64; T64; T64] [T64; T64] [
  LGet 0; Eqz64; LGet 1; Const (VI64 9223372036854775808); R64 Eq; B32 And; LGet 2; LGet 3;
  B64 And; Const (VI64 18446744073709551615); R64 Eq; B32 And;
  If 0 0 [
    Const (VI32 0); Call "stdlib.runtime-error"%string
  ] [
  ];
  LGet 1; Const (VI64 63); B64 ShrS; LSet 8; LGet 3; Const (VI64 63); B64 ShrS; LSet 9; LGet 8;
  LGet 9; B64 Xor; LSet 10; LGet 8; Wrap;
  If 0 0 [
    Const (VI64 0); Const (VI64 0); LGet 0; LGet 1; Call "stdlib.sub-int128"%string; LSet 1; LSet 0
  ] [
  ];
  LGet 9; Wrap;
  If 0 0 [
    Const (VI64 0); Const (VI64 0); LGet 2; LGet 3; Call "stdlib.sub-int128"%string; LSet 3; LSet 2
  ] [
  ];
  LGet 0; LGet 1; LGet 2; LGet 3; Call "stdlib.div-int128"%string; LSet 6; LSet 7; LSet 4; LSet 5;
  LGet 10; Wrap;
  If 0 0 [
    Const (VI64 0); Const (VI64 0); LGet 5; LGet 4; Call "stdlib.sub-int128"%string; LSet 4; LSet 5
  ] [
  ];
  LGet 5; LGet 4; Return
].

(** [stdlib.mod-uint]: /repo/clar2wasm/src/standard/standard.wat lines 852-865
    locals: 0=dividend_lo, 1=dividend_hi, 2=divisor_lo, 3=divisor_hi, 4=quotient_hi, 5=quotient_lo, 6=remainder_hi, 7=remainder_lo *)
Definition f_mod_uint : func := mkfunc [T64; T64; T64; T64] [T64; T64; T64; T64] [T64; T64] [
  LGet 0; LGet 1; LGet 2; LGet 3; Call "stdlib.div-int128"%string; LSet 6; LSet 7; LSet 4; LSet 5;
  LGet 7; LGet 6; Return
].

(** [stdlib.mod-int]: /repo/clar2wasm/src/standard/standard.wat lines 867-913
    locals: 0=dividend_lo, 1=dividend_hi, 2=divisor_lo, 3=divisor_hi, 4=quotient_hi, 5=quotient_lo, 6=remainder_hi, 7=remainder_lo, 8=sign_dividend, 9=sign_divisor, 10=expected_sign *)
Definition f_mod_int : func := mkfunc [T64; T64; T64; T64] [T64; T64; T64; T64; T64; T64; T64] [T64; T64] [
  LGet 1; Const (VI64 63); B64 ShrS; LSet 8; LGet 3; Const (VI64 63); B64 ShrS; LSet 9; LGet 8;
  LGet 9; B64 Xor; LSet 10; LGet 8; Wrap;
  If 0 0 [
    Const (VI64 0); Const (VI64 0); LGet 0; LGet 1; Call "stdlib.sub-int128"%string; LSet 1; LSet 0
  ] [
  ];
  LGet 9; Wrap;
  If 0 0 [
    Const (VI64 0); Const (VI64 0); LGet 2; LGet 3; Call "stdlib.sub-int128"%string; LSet 3; LSet 2
  ] [
  ];
  LGet 0; LGet 1; LGet 2; LGet 3; Call "stdlib.div-int128"%string; LSet 6; LSet 7; LSet 4; LSet 5;
  LGet 8; Wrap;
  If 0 0 [
    Const (VI64 0); Const (VI64 0); LGet 7; LGet 6; Call "stdlib.sub-int128"%string; LSet 6; LSet 7
  ] [
  ];
  LGet 7; LGet 6; Return
].

(** [stdlib.lt-uint]: /repo/clar2wasm/src/standard/standard.wat lines 915-921
    locals: 0=a_lo, 1=a_hi, 2=b_lo, 3=b_hi *)
Definition f_lt_uint : func := mkfunc [T64; T64; T64; T64] [] [T32] [
  LGet 0; LGet 2; R64 LtU; LGet 1; LGet 3; R64 LtU; LGet 1; LGet 3; R64 Eq; Select
].

(** [stdlib.gt-uint]: /repo/clar2wasm/src/standard/standard.wat lines 923-929
    locals: 0=a_lo, 1=a_hi, 2=b_lo, 3=b_hi *)
Definition f_gt_uint : func := mkfunc [T64; T64; T64; T64] [] [T32] [
  LGet 0; LGet 2; R64 GtU; LGet 1; LGet 3; R64 GtU; LGet 1; LGet 3; R64 Eq; Select
].

(** [stdlib.le-uint]: /repo/clar2wasm/src/standard/standard.wat lines 931-937
    locals: 0=a_lo, 1=a_hi, 2=b_lo, 3=b_hi *)
Definition f_le_uint : func := mkfunc [T64; T64; T64; T64] [] [T32] [
  LGet 0; LGet 2; R64 LeU; LGet 1; LGet 3; R64 LeU; LGet 1; LGet 3; R64 Eq; Select
].

(** [stdlib.ge-uint]: /repo/clar2wasm/src/standard/standard.wat lines 939-945
    locals: 0=a_lo, 1=a_hi, 2=b_lo, 3=b_hi *)
Definition f_ge_uint : func := mkfunc [T64; T64; T64; T64] [] [T32] [
  LGet 0; LGet 2; R64 GeU; LGet 1; LGet 3; R64 GeU; LGet 1; LGet 3; R64 Eq; Select
].

(** [stdlib.lt-int]: /repo/clar2wasm/src/standard/standard.wat lines 947-953
    locals: 0=a_lo, 1=a_hi, 2=b_lo, 3=b_hi *)
Definition f_lt_int : func := mkfunc [T64; T64; T64; T64] [] [T32] [
  LGet 0; LGet 2; R64 LtU; LGet 1; LGet 3; R64 LtS; LGet 1; LGet 3; R64 Eq; Select
].

(** [stdlib.gt-int]: /repo/clar2wasm/src/standard/standard.wat lines 955-961
    locals: 0=a_lo, 1=a_hi, 2=b_lo, 3=b_hi *)
Definition f_gt_int : func := mkfunc [T64; T64; T64; T64] [] [T32] [
  LGet 0; LGet 2; R64 GtU; LGet 1; LGet 3; R64 GtS; LGet 1; LGet 3; R64 Eq; Select
].

(** [stdlib.le-int]: /repo/clar2wasm/src/standard/standard.wat lines 963-969
    locals: 0=a_lo, 1=a_hi, 2=b_lo, 3=b_hi *)
Definition f_le_int : func := mkfunc [T64; T64; T64; T64] [] [T32] [
  LGet 0; LGet 2; R64 LeU; LGet 1; LGet 3; R64 LeS; LGet 1; LGet 3; R64 Eq; Select
].

(** [stdlib.ge-int]: /repo/clar2wasm/src/standard/standard.wat lines 971-977
    locals: 0=a_lo, 1=a_hi, 2=b_lo, 3=b_hi *)
Definition f_ge_int : func := mkfunc [T64; T64; T64; T64] [] [T32] [
  LGet 0; LGet 2; R64 GeU; LGet 1; LGet 3; R64 GeS; LGet 1; LGet 3; R64 Eq; Select
].

(** [stdlib.lt-buff]: /repo/clar2wasm/src/standard/standard.wat lines 979-1027
    locals: 0=offset_a, 1=length_a, 2=offset_b, 3=length_b, 4=i, 5=sub *)
Definition f_lt_buff : func := mkfunc [T32; T32; T32; T32] [T32; T32] [T32] [
  Block 0 0 [
    LGet 1; LGet 3; LGet 1; LGet 3; R32 LtU; Select; LTee 4; Eqz32; BrIf 0;
    Loop 0 0 [
      LGet 0; Load L32_8u 0; LGet 2; Load L32_8u 0; B32 Sub; LTee 5; Eqz32;
      If 0 0 [
        LGet 0; Const (VI32 1); B32 Add; LSet 0; LGet 2; Const (VI32 1); B32 Add; LSet 2; LGet 4;
        Const (VI32 1); B32 Sub; LTee 4; BrIf 1
      ] [
      ]
    ]
  ];
  LGet 5; Const (VI32 0); R32 LtS; LGet 1; LGet 3; R32 LtU; LGet 5; Select
].

(** [stdlib.gt-buff]: /repo/clar2wasm/src/standard/standard.wat lines 1029-1064
    locals: 0=offset_a, 1=length_a, 2=offset_b, 3=length_b, 4=i, 5=sub *)
Definition f_gt_buff : func := mkfunc [T32; T32; T32; T32] [T32; T32] [T32] [
  Block 0 0 [
    LGet 1; LGet 3; LGet 1; LGet 3; R32 LtU; Select; LTee 4; Eqz32; BrIf 0;
    Loop 0 0 [
      LGet 0; Load L32_8u 0; LGet 2; Load L32_8u 0; B32 Sub; LTee 5; Eqz32;
      If 0 0 [
        LGet 0; Const (VI32 1); B32 Add; LSet 0; LGet 2; Const (VI32 1); B32 Add; LSet 2; LGet 4;
        Const (VI32 1); B32 Sub; LTee 4; BrIf 1
      ] [
      ]
    ]
  ];
  LGet 5; Const (VI32 0); R32 GtS; LGet 1; LGet 3; R32 GtU; LGet 5; Select
].

(** [stdlib.le-buff]: /repo/clar2wasm/src/standard/standard.wat lines 1066-1101
    locals: 0=offset_a, 1=length_a, 2=offset_b, 3=length_b, 4=i, 5=sub *)
Definition f_le_buff : func := mkfunc [T32; T32; T32; T32] [T32; T32] [T32] [
  Block 0 0 [
    LGet 1; LGet 3; LGet 1; LGet 3; R32 LtU; Select; LTee 4; Eqz32; BrIf 0;
    Loop 0 0 [
      LGet 0; Load L32_8u 0; LGet 2; Load L32_8u 0; B32 Sub; LTee 5; Eqz32;
      If 0 0 [
        LGet 0; Const (VI32 1); B32 Add; LSet 0; LGet 2; Const (VI32 1); B32 Add; LSet 2; LGet 4;
        Const (VI32 1); B32 Sub; LTee 4; BrIf 1
      ] [
      ]
    ]
  ];
  LGet 5; Const (VI32 0); R32 LeS; LGet 1; LGet 3; R32 LeU; LGet 5; Select
].

(** [stdlib.ge-buff]: /repo/clar2wasm/src/standard/standard.wat lines 1103-1138
    locals: 0=offset_a, 1=length_a, 2=offset_b, 3=length_b, 4=i, 5=sub *)
Definition f_ge_buff : func := mkfunc [T32; T32; T32; T32] [T32; T32] [T32] [
  Block 0 0 [
    LGet 1; LGet 3; LGet 1; LGet 3; R32 LtU; Select; LTee 4; Eqz32; BrIf 0;
    Loop 0 0 [
      LGet 0; Load L32_8u 0; LGet 2; Load L32_8u 0; B32 Sub; LTee 5; Eqz32;
      If 0 0 [
        LGet 0; Const (VI32 1); B32 Add; LSet 0; LGet 2; Const (VI32 1); B32 Add; LSet 2; LGet 4;
        Const (VI32 1); B32 Sub; LTee 4; BrIf 1
      ] [
      ]
    ]
  ];
  LGet 5; Const (VI32 0); R32 GeS; LGet 1; LGet 3; R32 GeU; LGet 5; Select
].

(** [log2]: /repo/clar2wasm/src/standard/standard.wat lines 1140-1146
    locals: 0=lo, 1=hi *)
Definition f_log2 : func := mkfunc [T64; T64] [] [T64] [
  LGet 0; Clz64; Const (VI64 63); B64 Xor; LGet 1; Clz64; Const (VI64 127); B64 Xor; LGet 1; Eqz64;
  Select
].

(** [stdlib.log2-uint]: /repo/clar2wasm/src/standard/standard.wat lines 1148-1154
    locals: 0=lo, 1=hi *)
Definition f_log2_uint : func := mkfunc [T64; T64] [] [T64; T64] [
  LGet 1; LGet 0; B64 Or; Eqz64;
  If 0 0 [
    Const (VI32 3); Call "stdlib.runtime-error"%string
  ] [
  ];
  LGet 0; LGet 1; Call "log2"%string; Const (VI64 0)
].

(** [stdlib.log2-int]: /repo/clar2wasm/src/standard/standard.wat lines 1156-1162
    locals: 0=lo, 1=hi *)
Definition f_log2_int : func := mkfunc [T64; T64] [] [T64; T64] [
  LGet 0; LGet 1; Const (VI64 0); Const (VI64 0); Call "stdlib.le-int"%string;
  If 0 0 [
    Const (VI32 3); Call "stdlib.runtime-error"%string
  ] [
  ];
  LGet 0; LGet 1; Call "log2"%string; Const (VI64 0)
].

(** [stdlib.sqrti-uint]: /repo/clar2wasm/src/standard/standard.wat lines 1164-1255
    locals: 0=lo, 1=hi, 2=d_lo, 3=d_hi, 4=c_lo, 5=c_hi, 6=tmp_lo, 7=tmp_hi *)
Definition f_sqrti_uint : func := mkfunc [T64; T64] [T64; T64; T64; T64; T64; T64] [T64; T64] [
  LGet 0; LGet 1; B64 Or; Eqz64;
  If 0 0 [
    Const (VI64 0); Const (VI64 0); Return
  ] [
  ];
  Const (VI64 0); LSet 4; Const (VI64 0); LSet 5; LGet 1; Eqz64;
  If 0 0 [
    Const (VI64 4611686018427387904); LSet 3;
    Loop 0 0 [
      LGet 3; LTee 2; Const (VI64 2); B64 ShrU; LSet 3; LGet 0; LGet 2; R64 LtU; BrIf 0
    ];
    Const (VI64 0); LSet 3
  ] [
    Const (VI64 4611686018427387904); LSet 2;
    Loop 0 0 [
      LGet 2; LTee 3; Const (VI64 2); B64 ShrU; LSet 2; LGet 1; LGet 3; R64 LtU; BrIf 0
    ];
    Const (VI64 0); LSet 2
  ];
  Loop 0 0 [
    LGet 4; LGet 5; LGet 2; LGet 3; Call "stdlib.add-int128"%string; LSet 7; LSet 6; LGet 5;
    Const (VI64 63); B64 Shl; LGet 4; Const (VI64 1); B64 ShrU; B64 Or; LSet 4; LGet 5;
    Const (VI64 1); B64 ShrU; LSet 5; LGet 0; LGet 1; LGet 6; LGet 7; Call "stdlib.ge-uint"%string;
    If 0 0 [
      LGet 0; LGet 1; LGet 6; LGet 7; Call "stdlib.sub-int128"%string; LSet 1; LSet 0; LGet 4;
      LGet 5; LGet 2; LGet 3; Call "stdlib.add-int128"%string; LSet 5; LSet 4
    ] [
    ];
    LGet 3; Const (VI64 62); B64 Shl; LGet 2; Const (VI64 2); B64 ShrU; B64 Or; LSet 2; LGet 3;
    Const (VI64 2); B64 ShrU; LSet 3; LGet 2; LGet 3; B64 Or; Const (VI64 0); R64 Ne; BrIf 0
  ];
  LGet 4; LGet 5
].

(** [stdlib.sqrti-int]: /repo/clar2wasm/src/standard/standard.wat lines 1257-1262
    locals: 0=lo, 1=hi *)
Definition f_sqrti_int : func := mkfunc [T64; T64] [] [T64; T64] [
  LGet 1; Const (VI64 0); R64 LtS;
  If 0 0 [
    Const (VI32 4); Call "stdlib.runtime-error"%string
  ] [
  ];
  LGet 0; LGet 1; Call "stdlib.sqrti-uint"%string
].

(** [stdlib.bit-and]: /repo/clar2wasm/src/standard/standard.wat lines 1264-1267
    locals: 0=a_lo, 1=a_hi, 2=b_lo, 3=b_hi *)
Definition f_bit_and : func := mkfunc [T64; T64; T64; T64] [] [T64; T64] [
  LGet 0; LGet 2; B64 And; LGet 1; LGet 3; B64 And
].

(** [stdlib.bit-not]: /repo/clar2wasm/src/standard/standard.wat lines 1269-1273
    locals: 0=a_lo, 1=a_hi *)
Definition f_bit_not : func := mkfunc [T64; T64] [] [T64; T64] [
  LGet 0; Const (VI64 18446744073709551615); B64 Xor; LGet 1; Const (VI64 18446744073709551615);
  B64 Xor
].

(** [stdlib.bit-or]: /repo/clar2wasm/src/standard/standard.wat lines 1275-1278
    locals: 0=a_lo, 1=a_hi, 2=b_lo, 3=b_hi *)
Definition f_bit_or : func := mkfunc [T64; T64; T64; T64] [] [T64; T64] [
  LGet 0; LGet 2; B64 Or; LGet 1; LGet 3; B64 Or
].

(** [stdlib.bit-xor]: /repo/clar2wasm/src/standard/standard.wat lines 1280-1283
    locals: 0=a_lo, 1=a_hi, 2=b_lo, 3=b_hi *)
Definition f_bit_xor : func := mkfunc [T64; T64; T64; T64] [] [T64; T64] [
  LGet 0; LGet 2; B64 Xor; LGet 1; LGet 3; B64 Xor
].

(** [stdlib.bit-shift-left]: /repo/clar2wasm/src/standard/standard.wat lines 1285-1305
    locals: 0=a_lo, 1=a_hi, 2=b_lo, 3=b_hi *)
Definition f_bit_shift_left : func := mkfunc [T64; T64; T64; T64] [] [T64; T64] [
  LGet 2; Const (VI64 127); B64 And; LSet 2; LGet 2; Const (VI64 64); R64 LtU;
  If 0 2 [
    Const (VI64 0); LGet 0; Const (VI64 64); LGet 2; B64 Sub; B64 ShrU; LGet 2; Eqz64; Select;
    LSet 3; LGet 0; LGet 2; B64 Shl; LGet 1; LGet 2; B64 Shl; LGet 3; B64 Or
  ] [
    Const (VI64 0); LGet 0; LGet 2; Const (VI64 64); B64 Sub; B64 Shl
  ]
].

(** [stdlib.bit-shift-right-uint]: /repo/clar2wasm/src/standard/standard.wat lines 1307-1328
    locals: 0=a_lo, 1=a_hi, 2=b_lo, 3=b_hi *)
Definition f_bit_shift_right_uint : func := mkfunc [T64; T64; T64; T64] [] [T64; T64] [
  LGet 2; Const (VI64 127); B64 And; LSet 2; LGet 2; Const (VI64 64); R64 LtU;
  If 0 2 [
    Const (VI64 0); LGet 1; Const (VI64 64); LGet 2; B64 Sub; B64 Shl; LGet 2; Eqz64; Select;
    LSet 3; LGet 0; LGet 2; B64 ShrU; LGet 3; B64 Or; LGet 1; LGet 2; B64 ShrU
  ] [
    LGet 1; LGet 2; Const (VI64 64); B64 Sub; B64 ShrU; Const (VI64 0)
  ]
].

(** [stdlib.bit-shift-right-int]: /repo/clar2wasm/src/standard/standard.wat lines 1330-1346
    locals: 0=a_lo, 1=a_hi, 2=b_lo, 3=b_hi *)
Definition f_bit_shift_right_int : func := mkfunc [T64; T64; T64; T64] [] [T64; T64] [
  LGet 2; Const (VI64 127); B64 And; LSet 2; LGet 2; Const (VI64 64); R64 LtU;
  If 0 2 [
    Const (VI64 0); LGet 1; Const (VI64 64); LGet 2; B64 Sub; B64 Shl; LGet 2; Eqz64; Select;
    LSet 3; LGet 0; LGet 2; B64 ShrU; LGet 3; B64 Or; LGet 1; LGet 2; B64 ShrS
  ] [
    LGet 1; LGet 2; Const (VI64 64); B64 Sub; B64 ShrS; LGet 1; Const (VI64 63); B64 ShrS
  ]
].

(** [clz-int128]: /repo/clar2wasm/src/standard/standard.wat lines 1348-1356
    locals: 0=a_lo, 1=a_hi *)
Definition f_clz_int128 : func := mkfunc [T64; T64] [] [T32] [
  Const (VI64 64); LGet 0; Clz64; B64 Add; LGet 1; Clz64; LGet 1; Eqz64; Select; Wrap
].

(** [pow-inner]: /repo/clar2wasm/src/standard/standard.wat lines 1358-1383
    locals: 0=a_lo, 1=a_hi, 2=b, 3=carry_lo, 4=carry_hi *)
Definition f_pow_inner : func := mkfunc [T64; T64; T32] [T64; T64] [T64; T64] [
  Const (VI64 1); LSet 3; Const (VI64 0); LSet 4;
  Loop 0 0 [
    LGet 2; Const (VI32 1); B32 And; Eqz32;
    If 0 0 [
      LGet 2; Const (VI32 1); B32 ShrU; LSet 2; LGet 0; LGet 1; LGet 0; LGet 1;
      Call "stdlib.mul-uint"%string; LSet 1; LSet 0
    ] [
      LGet 2; Const (VI32 1); B32 Xor; LSet 2; LGet 0; LGet 1; LGet 3; LGet 4;
      Call "stdlib.mul-uint"%string; LSet 4; LSet 3
    ];
    LGet 2; Const (VI32 1); R32 GtU; BrIf 0
  ];
  LGet 0; LGet 1; LGet 3; LGet 4; Call "stdlib.mul-uint"%string
].

(** [stdlib.pow-uint]: /repo/clar2wasm/src/standard/standard.wat lines 1385-1430
    locals: 0=a_lo, 1=a_hi, 2=b_lo, 3=b_hi *)
Definition f_pow_uint : func := mkfunc [T64; T64; T64; T64] [] [T64; T64] [
  LGet 2; LGet 3; B64 Or; Eqz64;
  If 0 0 [
    Const (VI64 1); Const (VI64 0); Return
  ] [
  ];
  LGet 0; Const (VI64 2); R64 LtU; LGet 1; Eqz64; B32 And; LGet 2; Const (VI64 1); B64 Xor; LGet 3;
  B64 Or; Eqz64; B32 Or;
  If 0 0 [
    LGet 0; LGet 1; Return
  ] [
  ];
  LGet 2; Const (VI64 127); R64 GtU; LGet 3; Const (VI64 0); R64 Ne; B32 Or;
  If 0 0 [
    Const (VI32 8); Call "stdlib.runtime-error"%string
  ] [
  ];
  LGet 0; Const (VI64 2); B64 Xor; LGet 1; B64 Or; Eqz64;
  If 0 0 [
    Const (VI64 1); LGet 2; B64 Shl; Const (VI64 0); LGet 2; Const (VI64 64); R64 LtU; Select;
    Const (VI64 0); Const (VI64 1); LGet 2; Const (VI64 64); B64 Sub; B64 Shl; LGet 2;
    Const (VI64 64); R64 LtU; Select; Return
  ] [
  ];
  LGet 0; LGet 1; LGet 2; Wrap; Call "pow-inner"%string
].

(** [stdlib.pow-int]: /repo/clar2wasm/src/standard/standard.wat lines 1432-1550
    locals: 0=a_lo, 1=a_hi, 2=b_lo, 3=b_hi, 4=negative *)
Definition f_pow_int : func := mkfunc [T64; T64; T64; T64] [T32] [T64; T64] [
  LGet 2; LGet 3; B64 Or; Eqz64;
  If 0 0 [
    Const (VI64 1); Const (VI64 0); Return
  ] [
  ];
  LGet 0; Const (VI64 2); R64 LtU; LGet 1; Eqz64; B32 And; LGet 2; Const (VI64 1); B64 Xor; LGet 3;
  B64 Or; Eqz64; B32 Or;
  If 0 0 [
    LGet 0; LGet 1; Return
  ] [
  ];
  LGet 3; Const (VI64 0); R64 LtS;
  If 0 0 [
    Const (VI32 8); Call "stdlib.runtime-error"%string
  ] [
  ];
  LGet 2; Const (VI64 126); LGet 1; Const (VI64 0); R64 LtS; ExtU; B64 Add; R64 GtU; LGet 3;
  Const (VI64 0); R64 Ne; B32 Or;
  If 0 0 [
    Const (VI32 8); Call "stdlib.runtime-error"%string
  ] [
  ];
  LGet 0; Const (VI64 2); B64 Xor; LGet 1; B64 Or; Eqz64;
  If 0 0 [
    Const (VI64 1); LGet 2; B64 Shl; Const (VI64 0); LGet 2; Const (VI64 64); R64 LtU; LTee 4;
    Select; Const (VI64 0); Const (VI64 1); LGet 2; Const (VI64 64); B64 Sub; B64 Shl; LGet 4;
    Select; Return
  ] [
  ];
  LGet 0; Const (VI64 18446744073709551614); R64 Eq; LGet 1; Const (VI64 18446744073709551615);
  R64 Eq; B32 And;
  If 0 0 [
    Const (VI64 18446744073709551615); Const (VI64 1); LGet 2; Const (VI64 1); B64 And; Wrap;
    LTee 4; Select; LSet 0; Const (VI64 18446744073709551615); Const (VI64 0); LGet 4; Select;
    LSet 1; LGet 0; LGet 2; B64 Shl; Const (VI64 0); LGet 2; Const (VI64 64); R64 LtU; LTee 4;
    Select; LGet 1; LGet 0; LGet 2; Const (VI64 64); B64 Sub; B64 Shl; LGet 4; Select; Return
  ] [
  ];
  Const (VI64 0); LGet 0; B64 Sub; LGet 0; LGet 1; Const (VI64 0); R64 LtS; LTee 4; Select;
  Const (VI64 0); LGet 1; LGet 0; Const (VI64 0); R64 Ne; ExtU; B64 Add; B64 Sub; LGet 1; LGet 4;
  Select; LGet 2; Wrap; LTee 4; LGet 1; Const (VI64 0); R64 LtS; LGet 4; Const (VI32 1); B32 And;
  B32 And; LSet 4; Call "pow-inner"%string; LSet 1; LSet 0; LGet 1; Const (VI64 0); R64 LtS;
  If 0 0 [
    Const (VI32 0); Call "stdlib.runtime-error"%string
  ] [
  ];
  LGet 4;
  If 0 2 [
    Const (VI64 0); LGet 0; B64 Sub; Const (VI64 0); LGet 1; LGet 0; Const (VI64 0); R64 Ne; ExtU;
    B64 Add; B64 Sub
  ] [
    LGet 0; LGet 1
  ]
].

(** [stdlib.sha256-buf]: /repo/clar2wasm/src/standard/standard.wat lines 1552-1588
    locals: 0=offset, 1=length, 2=offset-result, 3=i *)
Definition f_sha256_buf : func := mkfunc [T32; T32; T32] [T32] [T32; T32] [
  LGet 0; LGet 1; Call "extend-data"%string; LSet 1; Const (VI32 0); LSet 3;
  Loop 0 0 [
    LGet 3; Call "block64"%string; Call "working-vars"%string; LGet 3; Const (VI32 64); B32 Add;
    LTee 3; LGet 1; R32 LtU; BrIf 0
  ];
  LGet 2; GGet "stack-pointer"%string; Load LV128 0;
  Const (VV128 16018520953223639909183530438118932995); VSwizzle; Store SV128 0; LGet 2;
  GGet "stack-pointer"%string; Load LV128 16; Const (VV128 16018520953223639909183530438118932995);
  VSwizzle; Store SV128 16; LGet 2; Const (VI32 32)
].

(** [stdlib.sha256-int]: /repo/clar2wasm/src/standard/standard.wat lines 1590-1622
    locals: 0=lo, 1=hi, 2=offset-result *)
Definition f_sha256_int : func := mkfunc [T64; T64; T32] [] [T32; T32] [
  GGet "stack-pointer"%string; Const (VI32 0); Const (VI32 32); MemCopy;
  GGet "stack-pointer"%string; LGet 0; Store S64 288; GGet "stack-pointer"%string; LGet 1;
  Store S64 296; GGet "stack-pointer"%string; Const (VI32 128); Store S32 304;
  GGet "stack-pointer"%string; Const (VI32 308); B32 Add; Const (VI32 0); Const (VI32 46); MemFill;
  GGet "stack-pointer"%string; Const (VI32 128); Store S32_8 351; Const (VI32 0);
  Call "block64"%string; Call "working-vars"%string; LGet 2; GGet "stack-pointer"%string;
  Load LV128 0; Const (VV128 16018520953223639909183530438118932995); VSwizzle; Store SV128 0;
  LGet 2; GGet "stack-pointer"%string; Load LV128 16;
  Const (VV128 16018520953223639909183530438118932995); VSwizzle; Store SV128 16; LGet 2;
  Const (VI32 32)
].

(** [extend-data]: /repo/clar2wasm/src/standard/standard.wat lines 1624-1686
    locals: 0=offset, 1=length, 2=res_len, 3=len64 *)
Definition f_extend_data : func := mkfunc [T32; T32] [T32; T64] [T32] [
  GGet "stack-pointer"%string; Const (VI32 0); Const (VI32 32); MemCopy;
  GGet "stack-pointer"%string; Const (VI32 288); B32 Add; LGet 0; LGet 1; MemCopy; LGet 1;
  Const (VI32 8); B32 Add; Const (VI32 63); B32 Or; Const (VI32 1); B32 Add; LSet 2;
  GGet "stack-pointer"%string; LGet 1; B32 Add; Const (VI32 128); Store S32 288;
  GGet "stack-pointer"%string; LGet 1; B32 Add; Const (VI32 289); B32 Add; Const (VI32 0); LGet 2;
  LGet 1; B32 Sub; Const (VI32 8); B32 Sub; MemFill; LGet 1; Const (VI32 3); B32 Shl; ExtU; LSet 3;
  GGet "stack-pointer"%string; LGet 2; B32 Add; Const (VI32 8); B32 Sub; LGet 3; Const (VI64 56);
  B64 Shl; LGet 3; Const (VI64 65280); B64 And; Const (VI64 40); B64 Shl; B64 Or; LGet 3;
  Const (VI64 16711680); B64 And; Const (VI64 24); B64 Shl; LGet 3; Const (VI64 4278190080);
  B64 And; Const (VI64 8); B64 Shl; B64 Or; B64 Or; LGet 3; Const (VI64 8); B64 ShrU;
  Const (VI64 4278190080); B64 And; LGet 3; Const (VI64 24); B64 ShrU; Const (VI64 16711680);
  B64 And; B64 Or; LGet 3; Const (VI64 40); B64 ShrU; Const (VI64 65280); B64 And; LGet 3;
  Const (VI64 56); B64 ShrU; B64 Or; B64 Or; B64 Or; Store S64 288; LGet 2
].

(** [block64]: /repo/clar2wasm/src/standard/standard.wat lines 1688-1746
    locals: 0=data, 1=origin, 2=i, 3=tmp *)
Definition f_block64 : func := mkfunc [T32] [T32; T32; T32] [] [
  GGet "stack-pointer"%string; LSet 1; LGet 1; LGet 0; B32 Add; LSet 0; Const (VI32 0); LSet 2;
  Loop 0 0 [
    LGet 1; LGet 2; B32 Add; LGet 0; LGet 2; B32 Add; Load LV128 288;
    Const (VV128 16018520953223639909183530438118932995); VSwizzle; Store SV128 32; LGet 2;
    Const (VI32 16); B32 Add; LTee 2; Const (VI32 64); R32 LtU; BrIf 0
  ];
  Const (VI32 0); LSet 2;
  Loop 0 0 [
    LGet 1; LGet 2; B32 Add; LSet 0; LGet 0; Const (VI32 64); B32 Add; LGet 0; Load L32 32; LGet 0;
    Load L32 36; LSet 3; LGet 3; Const (VI32 7); B32 Rotr; LGet 3; Const (VI32 18); B32 Rotr;
    B32 Xor; LGet 3; Const (VI32 3); B32 ShrU; B32 Xor; B32 Add; LGet 0; Load L32 68; B32 Add;
    LGet 0; Load L32 88; LSet 3; LGet 3; Const (VI32 17); B32 Rotr; LGet 3; Const (VI32 19);
    B32 Rotr; B32 Xor; LGet 3; Const (VI32 10); B32 ShrU; B32 Xor; B32 Add; Store S32 32; LGet 2;
    Const (VI32 4); B32 Add; LTee 2; Const (VI32 192); R32 LtU; BrIf 0
  ]
].

(** [working-vars]: /repo/clar2wasm/src/standard/standard.wat lines 1748-1822
    locals: 0=origin, 1=a, 2=b, 3=c, 4=d, 5=e, 6=f, 7=g, 8=h, 9=temp1, 10=temp2, 11=i *)
Definition f_working_vars : func := mkfunc [] [T32; T32; T32; T32; T32; T32; T32; T32; T32; T32; T32; T32] [] [
  GGet "stack-pointer"%string; LSet 0; LGet 0; Load L32 0; LSet 1; LGet 0; Load L32 4; LSet 2;
  LGet 0; Load L32 8; LSet 3; LGet 0; Load L32 12; LSet 4; LGet 0; Load L32 16; LSet 5; LGet 0;
  Load L32 20; LSet 6; LGet 0; Load L32 24; LSet 7; LGet 0; Load L32 28; LSet 8; Const (VI32 0);
  LSet 11;
  Loop 0 0 [
    LGet 8; LGet 5; Const (VI32 6); B32 Rotr; LGet 5; Const (VI32 11); B32 Rotr; B32 Xor; LGet 5;
    Const (VI32 25); B32 Rotr; B32 Xor; B32 Add; LGet 5; LGet 6; B32 And; LGet 5;
    Const (VI32 4294967295); B32 Xor; LGet 7; B32 And; B32 Xor; B32 Add; LGet 11; Load L32 32;
    B32 Add; LGet 0; LGet 11; B32 Add; Load L32 32; B32 Add; LSet 9; LGet 1; Const (VI32 2);
    B32 Rotr; LGet 1; Const (VI32 13); B32 Rotr; B32 Xor; LGet 1; Const (VI32 22); B32 Rotr;
    B32 Xor; LGet 1; LGet 2; B32 And; LGet 1; LGet 3; B32 And; B32 Xor; LGet 2; LGet 3; B32 And;
    B32 Xor; B32 Add; LSet 10; LGet 7; LSet 8; LGet 6; LSet 7; LGet 5; LSet 6; LGet 4; LGet 9;
    B32 Add; LSet 5; LGet 3; LSet 4; LGet 2; LSet 3; LGet 1; LSet 2; LGet 9; LGet 10; B32 Add;
    LSet 1; LGet 11; Const (VI32 4); B32 Add; LTee 11; Const (VI32 256); R32 LtU; BrIf 0
  ];
  LGet 0; LGet 0; Load L32 0; LGet 1; B32 Add; Store S32 0; LGet 0; LGet 0; Load L32 4; LGet 2;
  B32 Add; Store S32 4; LGet 0; LGet 0; Load L32 8; LGet 3; B32 Add; Store S32 8; LGet 0; LGet 0;
  Load L32 12; LGet 4; B32 Add; Store S32 12; LGet 0; LGet 0; Load L32 16; LGet 5; B32 Add;
  Store S32 16; LGet 0; LGet 0; Load L32 20; LGet 6; B32 Add; Store S32 20; LGet 0; LGet 0;
  Load L32 24; LGet 7; B32 Add; Store S32 24; LGet 0; LGet 0; Load L32 28; LGet 8; B32 Add;
  Store S32 28
].

(** [stdlib.hash160-buf]: /repo/clar2wasm/src/standard/standard.wat lines 1824-1841
    locals: 0=offset, 1=length, 2=offset-result, 3=i *)
Definition f_hash160_buf : func := mkfunc [T32; T32; T32] [T32] [T32; T32] [
  GGet "stack-pointer"%string; LTee 3; Const (VI32 32); B32 Add; GSet "stack-pointer"%string;
  LGet 0; LGet 1; LGet 3; Call "stdlib.sha256-buf"%string; Drop; GSet "stack-pointer"%string;
  Call "hash160-pad"%string; LGet 2; Call "hash160-compress"%string; LGet 2; Const (VI32 20)
].

(** [stdlib.hash160-int]: /repo/clar2wasm/src/standard/standard.wat lines 1843-1860
    locals: 0=lo, 1=hi, 2=offset-result, 3=i *)
Definition f_hash160_int : func := mkfunc [T64; T64; T32] [T32] [T32; T32] [
  GGet "stack-pointer"%string; LTee 3; Const (VI32 32); B32 Add; GSet "stack-pointer"%string;
  LGet 0; LGet 1; LGet 3; Call "stdlib.sha256-int"%string; Drop; GSet "stack-pointer"%string;
  Call "hash160-pad"%string; LGet 2; Call "hash160-compress"%string; LGet 2; Const (VI32 20)
].

(** [hash160-pad]: /repo/clar2wasm/src/standard/standard.wat lines 1862-1871
    locals:  *)
Definition f_hash160_pad : func := mkfunc [] [] [] [
  GGet "stack-pointer"%string; Const (VI64 128); Store S64 32; GGet "stack-pointer"%string;
  Const (VI32 40); B32 Add; Const (VI32 0); Const (VI32 16); MemFill; GGet "stack-pointer"%string;
  Const (VI64 256); Store S64 56
].

(** [hash160-compress]: /repo/clar2wasm/src/standard/standard.wat lines 1873-1968
    locals: 0=offset-result, 1=h0, 2=h1, 3=h2, 4=h3, 5=h4, 6=a1, 7=b1, 8=c1, 9=d1, 10=e1, 11=a2, 12=b2, 13=c2, 14=d2, 15=e2, 16=i, 17=round *)
Definition f_hash160_compress : func := mkfunc [T32] [T32; T32; T32; T32; T32; T32; T32; T32; T32; T32; T32; T32; T32; T32; T32; T32; T32] [] [
  Const (VI32 1732584193); LTee 1; LTee 6; LSet 11; Const (VI32 4023233417); LTee 2; LTee 7;
  LSet 12; Const (VI32 2562383102); LTee 3; LTee 8; LSet 13; Const (VI32 271733878); LTee 4;
  LTee 9; LSet 14; Const (VI32 3285377520); LTee 5; LTee 10; LSet 15; Const (VI32 0); LSet 16;
  Loop 0 0 [
    LGet 16; Const (VI32 4); B32 ShrU; LSet 17; LGet 6; LGet 7; LGet 8; LGet 9; LGet 17;
    Const (VI32 2); B32 Shl; Load L32 608; LGet 17; CallInd [T32; T32; T32; T32] [T32]; B32 Add;
    GGet "stack-pointer"%string; LGet 16; Load L32_8u 288; Const (VI32 2); B32 Shl; B32 Add;
    Load L32 0; B32 Add; LGet 16; Load L32_8u 448; B32 Rotl; LGet 10; B32 Add; LGet 10; LSet 6;
    LGet 9; LSet 10; LGet 8; Const (VI32 10); B32 Rotl; LSet 9; LGet 7; LSet 8; LSet 7; LGet 11;
    LGet 12; LGet 13; LGet 14; LGet 17; Const (VI32 2); B32 Shl; Load L32 628; Const (VI32 4);
    LGet 17; B32 Sub; CallInd [T32; T32; T32; T32] [T32]; B32 Add; GGet "stack-pointer"%string;
    LGet 16; Load L32_8u 368; Const (VI32 2); B32 Shl; B32 Add; Load L32 0; B32 Add; LGet 16;
    Load L32_8u 528; B32 Rotl; LGet 15; B32 Add; LGet 15; LSet 11; LGet 14; LSet 15; LGet 13;
    Const (VI32 10); B32 Rotl; LSet 14; LGet 12; LSet 13; LSet 12; LGet 16; Const (VI32 1);
    B32 Add; LTee 16; Const (VI32 80); R32 LtU; BrIf 0
  ];
  LGet 0; LGet 2; LGet 8; B32 Add; LGet 14; B32 Add; Store S32 0; LGet 0; LGet 3; LGet 9; B32 Add;
  LGet 15; B32 Add; Store S32 4; LGet 0; LGet 4; LGet 10; B32 Add; LGet 11; B32 Add; Store S32 8;
  LGet 0; LGet 5; LGet 6; B32 Add; LGet 12; B32 Add; Store S32 12; LGet 0; LGet 1; LGet 7; B32 Add;
  LGet 13; B32 Add; Store S32 16
].

(** [hash160-f1]: /repo/clar2wasm/src/standard/standard.wat lines 1970-1974
    locals: 0=x, 1=y, 2=z, 3=k *)
Definition f_hash160_f1 : func := mkfunc [T32; T32; T32; T32] [] [T32] [
  LGet 0; LGet 1; B32 Xor; LGet 2; B32 Xor; LGet 3; B32 Add
].

(** [hash160-f2]: /repo/clar2wasm/src/standard/standard.wat lines 1976-1983
    locals: 0=x, 1=y, 2=z, 3=k *)
Definition f_hash160_f2 : func := mkfunc [T32; T32; T32; T32] [] [T32] [
  LGet 0; LGet 1; B32 And; LGet 0; Const (VI32 4294967295); B32 Xor; LGet 2; B32 And; B32 Or;
  LGet 3; B32 Add
].

(** [hash160-f3]: /repo/clar2wasm/src/standard/standard.wat lines 1985-1992
    locals: 0=x, 1=y, 2=z, 3=k *)
Definition f_hash160_f3 : func := mkfunc [T32; T32; T32; T32] [] [T32] [
  LGet 0; LGet 1; Const (VI32 4294967295); B32 Xor; B32 Or; LGet 2; B32 Xor; LGet 3; B32 Add
].

(** [hash160-f4]: /repo/clar2wasm/src/standard/standard.wat lines 1994-2001
    locals: 0=x, 1=y, 2=z, 3=k *)
Definition f_hash160_f4 : func := mkfunc [T32; T32; T32; T32] [] [T32] [
  LGet 0; LGet 2; B32 And; LGet 1; LGet 2; Const (VI32 4294967295); B32 Xor; B32 And; B32 Or;
  LGet 3; B32 Add
].

(** [hash160-f5]: /repo/clar2wasm/src/standard/standard.wat lines 2003-2010
    locals: 0=x, 1=y, 2=z, 3=k *)
Definition f_hash160_f5 : func := mkfunc [T32; T32; T32; T32] [] [T32] [
  LGet 0; LGet 1; LGet 2; Const (VI32 4294967295); B32 Xor; B32 Or; B32 Xor; LGet 3; B32 Add
].

(** [stdlib.store-i32-be]: /repo/clar2wasm/src/standard/standard.wat lines 2012-2026
    locals: 0=address, 1=value *)
Definition f_store_i32_be : func := mkfunc [T32; T32] [] [] [
  LGet 0; LGet 1; Const (VI32 24); B32 Shl; LGet 1; Const (VI32 65280); B32 And; Const (VI32 8);
  B32 Shl; B32 Or; LGet 1; Const (VI32 8); B32 ShrU; Const (VI32 65280); B32 And; LGet 1;
  Const (VI32 24); B32 ShrU; B32 Or; B32 Or; Store S32 0
].

(** [stdlib.load-i32-be]: /repo/clar2wasm/src/standard/standard.wat lines 2028-2041
    locals: 0=address, 1=value *)
Definition f_load_i32_be : func := mkfunc [T32] [T32] [T32] [
  LGet 0; Load L32 0; LSet 1; LGet 1; Const (VI32 24); B32 Shl; LGet 1; Const (VI32 65280);
  B32 And; Const (VI32 8); B32 Shl; B32 Or; LGet 1; Const (VI32 8); B32 ShrU; Const (VI32 65280);
  B32 And; LGet 1; Const (VI32 24); B32 ShrU; B32 Or; B32 Or
].

(** [stdlib.store-i64-be]: /repo/clar2wasm/src/standard/standard.wat lines 2043-2069
    locals: 0=address, 1=value *)
Definition f_store_i64_be : func := mkfunc [T32; T64] [] [] [
  LGet 0; LGet 1; Const (VI64 56); B64 Shl; LGet 1; Const (VI64 65280); B64 And; Const (VI64 40);
  B64 Shl; B64 Or; LGet 1; Const (VI64 16711680); B64 And; Const (VI64 24); B64 Shl; LGet 1;
  Const (VI64 4278190080); B64 And; Const (VI64 8); B64 Shl; B64 Or; B64 Or; LGet 1;
  Const (VI64 8); B64 ShrU; Const (VI64 4278190080); B64 And; LGet 1; Const (VI64 24); B64 ShrU;
  Const (VI64 16711680); B64 And; B64 Or; LGet 1; Const (VI64 40); B64 ShrU; Const (VI64 65280);
  B64 And; LGet 1; Const (VI64 56); B64 ShrU; B64 Or; B64 Or; B64 Or; Store S64 0
].

(** [stdlib.buff-to-uint-be]: /repo/clar2wasm/src/standard/standard.wat lines 2071-2107
    locals: 0=offset, 1=length, 2=mask_lo, 3=mask_hi, 4=double *)
Definition f_buff_to_uint_be : func := mkfunc [T32; T32] [T64; T64; T128] [T64; T64] [
  LGet 1; Const (VI32 16); R32 GtU;
  If 0 0 [
    Const (VI32 5); Call "stdlib.runtime-error"%string
  ] [
  ];
  LGet 1; Eqz32;
  If 0 0 [
    Const (VI64 0); Const (VI64 0); Return
  ] [
  ];
  LGet 0; LGet 1; B32 Add; Const (VI32 16); B32 Sub; LSet 0; Const (VI64 18446744073709551615);
  Const (VI64 18446744073709551615); LGet 1; Const (VI32 56); B32 Mul; Const (VI32 56); B32 And;
  ExtU; B64 ShrU; LTee 3; LGet 1; Const (VI32 8); R32 GeU; Select; LSet 2; LGet 3; Const (VI64 0);
  LGet 1; Const (VI32 8); R32 GtU; Select; LSet 3; LGet 0; Load LV128 0;
  Const (VV128 10680758337341567148842519922299176455); VSwizzle; LSet 4; LGet 4; VExtract64 1;
  LGet 2; B64 And; LGet 4; VExtract64 0; LGet 3; B64 And
].

(** [stdlib.buff-to-uint-le]: /repo/clar2wasm/src/standard/standard.wat lines 2109-2132
    locals: 0=offset, 1=length, 2=mask_lo, 3=mask_hi *)
Definition f_buff_to_uint_le : func := mkfunc [T32; T32] [T64; T64] [T64; T64] [
  LGet 1; Const (VI32 16); R32 GtU;
  If 0 0 [
    Const (VI32 5); Call "stdlib.runtime-error"%string
  ] [
  ];
  LGet 1; Eqz32;
  If 0 0 [
    Const (VI64 0); Const (VI64 0); Return
  ] [
  ];
  Const (VI64 18446744073709551615); Const (VI64 18446744073709551615); LGet 1; Const (VI32 56);
  B32 Mul; Const (VI32 56); B32 And; ExtU; B64 ShrU; LTee 3; LGet 1; Const (VI32 8); R32 GeU;
  Select; LSet 2; LGet 3; Const (VI64 0); LGet 1; Const (VI32 8); R32 GtU; Select; LSet 3; LGet 0;
  Load L64 0; LGet 2; B64 And; LGet 0; Load L64 8; LGet 3; B64 And
].

(** [stdlib.not]: /repo/clar2wasm/src/standard/standard.wat lines 2137-2139
    locals: 0=bool_in *)
Definition f_not : func := mkfunc [T32] [] [T32] [
  LGet 0; Eqz32
].

(** [stdlib.principal-construct]: /repo/clar2wasm/src/standard/standard.wat lines 2145-2280
    locals: 0=version_offset, 1=version_length, 2=pkhash_offset, 3=pkhash_length, 4=contract_present, 5=contract_offset, 6=contract_length, 7=res_principal_offset, 8=version, 9=valid, 10=result_length *)
Definition f_principal_construct : func := mkfunc [T32; T32; T32; T32; T32; T32; T32; T32] [T32; T32; T32] [T32; T32; T32; T64; T64; T32; T32; T32] [
  LGet 1; Eqz32;
  If 0 0 [
    Const (VI32 0); Const (VI32 0); Const (VI32 0); Const (VI64 1); Const (VI64 0); Const (VI32 0);
    Const (VI32 0); Const (VI32 0); Return
  ] [
  ];
  LGet 0; Load L32_8u 0; LTee 8; Const (VI32 32); R32 GeU;
  If 0 0 [
    Const (VI32 0); Const (VI32 0); Const (VI32 0); Const (VI64 1); Const (VI64 0); Const (VI32 0);
    Const (VI32 0); Const (VI32 0); Return
  ] [
  ];
  LGet 8; Call "stdlib.is-version-valid"%string; LSet 9; LGet 3; Const (VI32 20); R32 LtU;
  If 0 0 [
    Const (VI32 0); Const (VI32 0); Const (VI32 0); Const (VI64 1); Const (VI64 0); Const (VI32 0);
    Const (VI32 0); Const (VI32 0); Return
  ] [
  ];
  LGet 7; LGet 8; Store S32_8 0; LGet 7; Const (VI32 1); B32 Add; LGet 2; Const (VI32 20); MemCopy;
  LGet 7; LGet 6; Store S32_8 21; LGet 4; Const (VI32 1); R32 Eq;
  If 0 0 [
    LGet 5; LGet 6; Call "stdlib.is-valid-contract-name"%string; Eqz32;
    If 0 0 [
      Const (VI32 0); Const (VI32 0); Const (VI32 0); Const (VI64 2); Const (VI64 0);
      Const (VI32 0); Const (VI32 0); Const (VI32 0); Return
    ] [
    ];
    LGet 7; Const (VI32 22); B32 Add; LGet 5; LGet 6; MemCopy
  ] [
  ];
  LGet 6; Const (VI32 22); B32 Add; LSet 10; LGet 9;
  If 0 8 [
    Const (VI32 1); LGet 7; LGet 10; Const (VI64 0); Const (VI64 0); Const (VI32 0);
    Const (VI32 0); Const (VI32 0)
  ] [
    Const (VI32 0); Const (VI32 0); Const (VI32 0); Const (VI64 0); Const (VI64 0); Const (VI32 1);
    LGet 7; LGet 10
  ]
].

(** [stdlib.is-valid-contract-name]: /repo/clar2wasm/src/standard/standard.wat lines 2282-2321
    locals: 0=offset, 1=length, 2=end *)
Definition f_is_valid_contract_name : func := mkfunc [T32; T32] [T32] [T32] [
  LGet 1; Eqz32;
  If 0 0 [
    Const (VI32 0); Return
  ] [
  ];
  LGet 0; Load L32_8u 0; Call "stdlib.is-alpha"%string; Eqz32;
  If 0 0 [
    LGet 0; LGet 1; Call "stdlib.is-transient"%string;
    If 0 0 [
      Const (VI32 1); Return
    ] [
    ];
    Const (VI32 0); Return
  ] [
  ];
  LGet 0; LGet 1; B32 Add; LSet 2; LGet 0; Const (VI32 1); B32 Add; LSet 0;
  Loop 0 0 [
    LGet 0; LGet 2; R32 Eq;
    If 0 0 [
      Const (VI32 1); Return
    ] [
    ];
    LGet 0; Load L32_8u 0; Call "stdlib.is-valid-char"%string; Eqz32;
    If 0 0 [
      Const (VI32 0); Return
    ] [
    ];
    LGet 0; Const (VI32 1); B32 Add; LSet 0; Br 0
  ];
  Unreachable
].

(** [stdlib.is-alpha]: /repo/clar2wasm/src/standard/standard.wat lines 2324-2332
    locals: 0=char *)
Definition f_is_alpha : func := mkfunc [T32] [] [T32] [
  LGet 0; Const (VI32 223); B32 And; Const (VI32 65); B32 Sub; Const (VI32 255); B32 And;
  Const (VI32 26); R32 LtU
].

(** [stdlib.is-valid-char]: /repo/clar2wasm/src/standard/standard.wat lines 2335-2349
    locals: 0=char *)
Definition f_is_valid_char : func := mkfunc [T32] [] [T32] [
  LGet 0; Call "stdlib.is-alpha"%string; LGet 0; Const (VI32 48); R32 GeU; LGet 0; Const (VI32 57);
  R32 LeU; B32 And; B32 Or; LGet 0; Const (VI32 45); R32 Eq; LGet 0; Const (VI32 95); R32 Eq;
  B32 Or; B32 Or
].

(** [stdlib.is-transient]: /repo/clar2wasm/src/standard/standard.wat lines 2352-2367
    locals: 0=offset, 1=length *)
Definition f_is_transient : func := mkfunc [T32; T32] [] [T32] [
  LGet 1; Const (VI32 11); R32 Ne;
  If 0 1 [
    Const (VI32 0)
  ] [
    LGet 0; Load LV128 0; Const (VV128 309485009821345068724781055); VAnd;
    Const (VV128 140756726108102451019407199); VXor; VAnyTrue; Eqz32
  ]
].

(** [stdlib.is-version-valid]: /repo/clar2wasm/src/standard/standard.wat lines 2370-2391
    locals: 0=version *)
Definition f_is_version_valid : func := mkfunc [T32] [] [T32] [
  Call "stdlib.is_in_mainnet"%string;
  If 0 1 [
    LGet 0; Const (VI32 20); R32 Eq; LGet 0; Const (VI32 22); R32 Eq; B32 Or
  ] [
    LGet 0; Const (VI32 21); R32 Eq; LGet 0; Const (VI32 26); R32 Eq; B32 Or
  ]
].

(** [stdlib.string-to-uint]: /repo/clar2wasm/src/standard/standard.wat lines 2393-2468
    locals: 0=offset, 1=len, 2=lo, 3=hi, 4=loaded *)
Definition f_string_to_uint : func := mkfunc [T32; T32] [T64; T64; T64] [T32; T64; T64] [
  LGet 1; Const (VI32 40); B32 Sub; Const (VI32 4294967257); R32 LtU;
  If 0 0 [
    Const (VI32 0); Const (VI64 0); Const (VI64 0); Return
  ] [
  ];
  Loop 0 0 [
    LGet 0; Load L64_8u 0; Const (VI64 48); B64 Sub; LTee 4; Const (VI64 10); R64 LtU;
    If 0 0 [
      LGet 2; Const (VI64 10); B64 Mul; LGet 4; B64 Add; LSet 2
    ] [
      Const (VI32 0); Const (VI64 0); Const (VI64 0); Return
    ];
    LGet 0; Const (VI32 1); B32 Add; LSet 0; LGet 1; Const (VI32 1); B32 Sub; LTee 1;
    Const (VI32 0); R32 Ne; LGet 2; Const (VI64 1844674407370955161); R64 LtU; B32 And; BrIf 0
  ];
  LGet 1; Eqz32;
  If 0 0 [
    Const (VI32 1); LGet 2; Const (VI64 0); Return
  ] [
  ];
  Loop 0 0 [
    LGet 0; Load L64_8u 0; Const (VI64 48); B64 Sub; LTee 4; Const (VI64 10); R64 LtU;
    If 0 0 [
      LGet 2; LGet 3; Const (VI64 10); Const (VI64 0); Call "stdlib.mul-int128"%string; LGet 4;
      Const (VI64 0); Call "stdlib.add-int128"%string; LSet 3; LSet 2
    ] [
      Const (VI32 0); Const (VI64 0); Const (VI64 0); Return
    ];
    LGet 0; Const (VI32 1); B32 Add; LSet 0; LGet 1; Const (VI32 1); B32 Sub; LTee 1;
    Const (VI32 0); R32 Ne; LGet 2; Const (VI64 11068046444225730969); R64 LtU; LGet 3;
    Const (VI64 1844674407370955161); R64 LtU; LGet 3; Const (VI64 1844674407370955161); R64 Eq;
    Select; B32 And; BrIf 0
  ];
  LGet 1; Eqz32;
  If 0 3 [
    Const (VI32 1); LGet 2; LGet 3
  ] [
    LGet 0; Load L64_8u 0; Const (VI64 48); B64 Sub; LTee 4; Const (VI64 5); R64 LeU;
    If 0 3 [
      Const (VI32 1); Const (VI64 18446744073709551610); LGet 4; B64 Add;
      Const (VI64 18446744073709551615)
    ] [
      Const (VI32 0); Const (VI64 0); Const (VI64 0)
    ]
  ]
].

(** [stdlib.utf8-to-uint]: /repo/clar2wasm/src/standard/standard.wat lines 2470-2551
    locals: 0=offset, 1=len, 2=lo, 3=hi, 4=loaded *)
Definition f_utf8_to_uint : func := mkfunc [T32; T32] [T64; T64; T64] [T32; T64; T64] [
  LGet 1; Const (VI32 157); B32 Sub; Const (VI32 4294967140); R32 LtU;
  If 0 0 [
    Const (VI32 0); Const (VI64 0); Const (VI64 0); Return
  ] [
  ];
  Loop 0 0 [
    LGet 0; Load L64_32u 0; LTee 4; Const (VI64 16777215); B64 And; Eqz64; LGet 4; Const (VI64 24);
    B64 ShrU; Const (VI64 48); B64 Sub; LTee 4; Const (VI64 10); R64 LtU; B32 And;
    If 0 0 [
      LGet 2; Const (VI64 10); B64 Mul; LGet 4; B64 Add; LSet 2
    ] [
      Const (VI32 0); Const (VI64 0); Const (VI64 0); Return
    ];
    LGet 0; Const (VI32 4); B32 Add; LSet 0; LGet 1; Const (VI32 4); B32 Sub; LTee 1;
    Const (VI32 0); R32 Ne; LGet 2; Const (VI64 1844674407370955161); R64 LtU; B32 And; BrIf 0
  ];
  LGet 1; Eqz32;
  If 0 0 [
    Const (VI32 1); LGet 2; Const (VI64 0); Return
  ] [
  ];
  Loop 0 0 [
    LGet 0; Load L64_32u 0; LTee 4; Const (VI64 16777215); B64 And; Eqz64; LGet 4; Const (VI64 24);
    B64 ShrU; Const (VI64 48); B64 Sub; LTee 4; Const (VI64 10); R64 LtU; B32 And;
    If 0 0 [
      LGet 2; LGet 3; Const (VI64 10); Const (VI64 0); Call "stdlib.mul-int128"%string; LGet 4;
      Const (VI64 0); Call "stdlib.add-int128"%string; LSet 3; LSet 2
    ] [
      Const (VI32 0); Const (VI64 0); Const (VI64 0); Return
    ];
    LGet 0; Const (VI32 4); B32 Add; LSet 0; LGet 1; Const (VI32 4); B32 Sub; LTee 1;
    Const (VI32 0); R32 Ne; LGet 2; Const (VI64 11068046444225730969); R64 LtU; LGet 3;
    Const (VI64 1844674407370955161); R64 LtU; LGet 3; Const (VI64 1844674407370955161); R64 Eq;
    Select; B32 And; BrIf 0
  ];
  LGet 1; Eqz32;
  If 0 3 [
    Const (VI32 1); LGet 2; LGet 3
  ] [
    LGet 0; Load L64_32u 0; LTee 4; Const (VI64 16777215); B64 And; Eqz64; LGet 4; Const (VI64 24);
    B64 ShrU; Const (VI64 48); B64 Sub; LTee 4; Const (VI64 5); R64 LeU; B32 And;
    If 0 3 [
      Const (VI32 1); Const (VI64 18446744073709551610); LGet 4; B64 Add;
      Const (VI64 18446744073709551615)
    ] [
      Const (VI32 0); Const (VI64 0); Const (VI64 0)
    ]
  ]
].

(** [stdlib.string-to-int]: /repo/clar2wasm/src/standard/standard.wat lines 2553-2594
    locals: 0=offset, 1=len, 2=neg, 3=lo, 4=hi *)
Definition f_string_to_int : func := mkfunc [T32; T32] [T32; T64; T64] [T32; T64; T64] [
  LGet 0; Load L32_8u 0; Const (VI32 45); R32 Eq; LSet 2; LGet 0; LGet 2; B32 Add; LGet 1; LGet 2;
  B32 Sub; Call "stdlib.string-to-uint"%string; LSet 4; LSet 3; LGet 2; LGet 3; Eqz64; LGet 4;
  Const (VI64 9223372036854775808); R64 Eq; B32 And; B32 And;
  If 0 0 [
    Const (VI32 1); Const (VI64 0); Const (VI64 9223372036854775808); Return
  ] [
  ];
  Eqz32; LGet 4; Const (VI64 0); R64 LtS; B32 Or;
  If 0 0 [
    Const (VI32 0); Const (VI64 0); Const (VI64 0); Return
  ] [
  ];
  Const (VI32 1); LGet 2; Eqz32;
  If 0 2 [
    LGet 3; LGet 4
  ] [
    Const (VI64 0); LGet 3; B64 Sub; Const (VI64 0); LGet 4; LGet 3; Const (VI64 0); R64 Ne; ExtU;
    B64 Add; B64 Sub
  ]
].

(** [stdlib.utf8-to-int]: /repo/clar2wasm/src/standard/standard.wat lines 2596-2637
    locals: 0=offset, 1=len, 2=neg, 3=lo, 4=hi *)
Definition f_utf8_to_int : func := mkfunc [T32; T32] [T32; T64; T64] [T32; T64; T64] [
  LGet 0; Load L32 0; Const (VI32 754974720); R32 Eq; Const (VI32 2); B32 Shl; LSet 2; LGet 0;
  LGet 2; B32 Add; LGet 1; LGet 2; B32 Sub; Call "stdlib.utf8-to-uint"%string; LSet 4; LSet 3;
  LGet 2; Const (VI32 0); R32 Ne; LGet 3; Eqz64; LGet 4; Const (VI64 9223372036854775808); R64 Eq;
  B32 And; B32 And;
  If 0 0 [
    Const (VI32 1); Const (VI64 0); Const (VI64 9223372036854775808); Return
  ] [
  ];
  Eqz32; LGet 4; Const (VI64 0); R64 LtS; B32 Or;
  If 0 0 [
    Const (VI32 0); Const (VI64 0); Const (VI64 0); Return
  ] [
  ];
  Const (VI32 1); LGet 2; Eqz32;
  If 0 2 [
    LGet 3; LGet 4
  ] [
    Const (VI64 0); LGet 3; B64 Sub; Const (VI64 0); LGet 4; LGet 3; Const (VI64 0); R64 Ne; ExtU;
    B64 Add; B64 Sub
  ]
].

(** [stdlib.uint-to-string]: /repo/clar2wasm/src/standard/standard.wat lines 2639-2711
    locals: 0=lo, 1=hi, 2=result_offset, 3=i, 4=j *)
Definition f_uint_to_string : func := mkfunc [T64; T64; T32] [T32; T32] [T32; T32] [
  LGet 2; LTee 3; LSet 4; LGet 1; Const (VI64 0); R64 Ne;
  If 0 0 [
    Loop 0 0 [
      LGet 0; LGet 1; Const (VI64 10); Const (VI64 0); Call "stdlib.div-int128"%string; Drop;
      Const (VI64 48); B64 Add; LSet 0; LGet 3; LGet 0; Store S64_8 0; LSet 1; LSet 0; LGet 3;
      Const (VI32 1); B32 Add; LSet 3; LGet 1; Const (VI64 0); R64 Ne; BrIf 0
    ]
  ] [
  ];
  Loop 0 0 [
    LGet 3; LGet 0; LGet 0; Const (VI64 10); B64 DivU; LTee 0; Const (VI64 18446744073709551606);
    B64 Mul; B64 Add; Const (VI64 48); B64 Add; Store S64_8 0; LGet 3; Const (VI32 1); B32 Add;
    LSet 3; LGet 0; Const (VI64 0); R64 Ne; BrIf 0
  ];
  LGet 4; LGet 3; LGet 4; B32 Sub; LGet 3; LSet 2; LGet 3; Const (VI32 1); B32 Sub; LSet 3;
  Loop 0 0 [
    LGet 4; LGet 3; Load L32_8u 0; LGet 3; LGet 4; Load L32_8u 0; Store S32_8 0; Store S32_8 0;
    LGet 4; Const (VI32 1); B32 Add; LTee 4; LGet 3; Const (VI32 1); B32 Sub; LTee 3; R32 LtU;
    BrIf 0
  ]
].

(** [stdlib.int-to-string]: /repo/clar2wasm/src/standard/standard.wat lines 2713-2747
    locals: 0=lo, 1=hi, 2=result_offset, 3=negative, 4=len *)
Definition f_int_to_string : func := mkfunc [T64; T64; T32] [T32; T32] [T32; T32] [
  LGet 1; Const (VI64 0); R64 LtS; LSet 3; LGet 3;
  If 0 0 [
    LGet 2; Const (VI32 45); Store S32_8 0; LGet 2; Const (VI32 1); B32 Add; LSet 2
  ] [
  ];
  LGet 0; Eqz64; LGet 1; Const (VI64 0); R64 GeS; LGet 1; Const (VI64 9223372036854775808); R64 Eq;
  Select;
  If 0 2 [
    LGet 0; LGet 1; LGet 2; Call "stdlib.uint-to-string"%string
  ] [
    Const (VI64 0); LGet 0; B64 Sub; Const (VI64 0); LGet 1; LGet 0; Const (VI64 0); R64 Ne; ExtU;
    B64 Add; B64 Sub; LGet 2; Call "stdlib.uint-to-string"%string
  ];
  LGet 3; B32 Add; LSet 4; LGet 3; B32 Sub; LGet 4
].

(** [stdlib.uint-to-utf8]: /repo/clar2wasm/src/standard/standard.wat lines 2749-2824
    locals: 0=lo, 1=hi, 2=result_offset, 3=i, 4=j *)
Definition f_uint_to_utf8 : func := mkfunc [T64; T64; T32] [T32; T32] [T32; T32] [
  LGet 2; LTee 3; LSet 4; LGet 1; Const (VI64 0); R64 Ne;
  If 0 0 [
    Loop 0 0 [
      LGet 0; LGet 1; Const (VI64 10); Const (VI64 0); Call "stdlib.div-int128"%string; Drop;
      Const (VI64 48); B64 Add; LSet 0; LGet 3; LGet 0; Const (VI64 24); B64 Shl; Store S64_32 0;
      LSet 1; LSet 0; LGet 3; Const (VI32 4); B32 Add; LSet 3; LGet 1; Const (VI64 0); R64 Ne;
      BrIf 0
    ]
  ] [
  ];
  Loop 0 0 [
    LGet 3; LGet 0; LGet 0; Const (VI64 10); B64 DivU; LTee 0; Const (VI64 18446744073709551606);
    B64 Mul; B64 Add; Const (VI64 48); B64 Add; Const (VI64 24); B64 Shl; Store S64_32 0; LGet 3;
    Const (VI32 4); B32 Add; LSet 3; LGet 0; Const (VI64 0); R64 Ne; BrIf 0
  ];
  LGet 4; LGet 3; LGet 4; B32 Sub; LGet 3; LSet 2; LGet 3; Const (VI32 4); B32 Sub; LSet 3;
  Loop 0 0 [
    LGet 4; LGet 3; Load L32 0; LGet 3; LGet 4; Load L32 0; Store S32 0; Store S32 0; LGet 4;
    Const (VI32 4); B32 Add; LTee 4; LGet 3; Const (VI32 4); B32 Sub; LTee 3; R32 LtU; BrIf 0
  ]
].

(** [stdlib.int-to-utf8]: /repo/clar2wasm/src/standard/standard.wat lines 2826-2861
    locals: 0=lo, 1=hi, 2=result_offset, 3=negative, 4=len *)
Definition f_int_to_utf8 : func := mkfunc [T64; T64; T32] [T32; T32] [T32; T32] [
  LGet 1; Const (VI64 0); R64 LtS; Const (VI32 2); B32 Shl; LSet 3; LGet 3;
  If 0 0 [
    LGet 2; Const (VI32 754974720); Store S32 0; LGet 2; Const (VI32 4); B32 Add; LSet 2
  ] [
  ];
  LGet 0; Eqz64; LGet 1; Const (VI64 0); R64 GeS; LGet 1; Const (VI64 9223372036854775808); R64 Eq;
  Select;
  If 0 2 [
    LGet 0; LGet 1; LGet 2; Call "stdlib.uint-to-utf8"%string
  ] [
    Const (VI64 0); LGet 0; B64 Sub; Const (VI64 0); LGet 1; LGet 0; Const (VI64 0); R64 Ne; ExtU;
    B64 Add; B64 Sub; LGet 2; Call "stdlib.uint-to-utf8"%string
  ];
  LGet 3; B32 Add; LSet 4; LGet 3; B32 Sub; LGet 4
].

(** [stdlib.to-uint]: /repo/clar2wasm/src/standard/standard.wat lines 2869-2875
    locals: 0=lo, 1=hi *)
Definition f_to_uint : func := mkfunc [T64; T64] [] [T64; T64] [
  LGet 1; Const (VI64 0); R64 LtS;
  If 0 0 [
    Const (VI32 1); Call "stdlib.runtime-error"%string
  ] [
  ];
  LGet 0; LGet 1
].

(** [stdlib.to-int]: /repo/clar2wasm/src/standard/standard.wat lines 2883-2894
    locals: 0=lo, 1=hi *)
Definition f_to_int : func := mkfunc [T64; T64] [] [T64; T64] [
  LGet 1; Const (VI64 9223372036854775808); R64 GeU;
  If 0 0 [
    Const (VI32 0); Call "stdlib.runtime-error"%string
  ] [
  ];
  LGet 0; LGet 1
].

(** [stdlib.sha512-buf]: /repo/clar2wasm/src/standard/standard.wat lines 2896-2932
    locals: 0=offset, 1=length, 2=offset-result, 3=length_after_padding, 4=index *)
Definition f_sha512_buf : func := mkfunc [T32; T32; T32] [T32; T32] [T32; T32] [
  LGet 0; LGet 1; Call "pad-sha512-data"%string; LSet 3; Const (VI32 0); LSet 4;
  Loop 0 0 [
    LGet 4; Call "process-sha512-block"%string; Call "calculate-sha512"%string; LGet 4;
    Const (VI32 128); B32 Add; LTee 4; LGet 3; R32 LtU; BrIf 0
  ];
  LGet 2; Call "store-calculated-sha512"%string; LGet 2; Const (VI32 64)
].

(** [stdlib.sha512-int]: /repo/clar2wasm/src/standard/standard.wat lines 2934-2954
    locals: 0=lo, 1=hi, 2=offset-result *)
Definition f_sha512_int : func := mkfunc [T64; T64; T32] [] [T32; T32] [
  GGet "stack-pointer"%string; Const (VI32 648); Const (VI32 64); MemCopy;
  GGet "stack-pointer"%string; LGet 0; Store S64 704; GGet "stack-pointer"%string; LGet 1;
  Store S64 712; GGet "stack-pointer"%string; Const (VI32 128); Store S32 720;
  GGet "stack-pointer"%string; Const (VI32 724); B32 Add; Const (VI32 0); Const (VI32 110);
  MemFill; GGet "stack-pointer"%string; Const (VI32 128); Store S32_8 831; Const (VI32 0);
  Call "process-sha512-block"%string; Call "calculate-sha512"%string; LGet 2;
  Call "store-calculated-sha512"%string; LGet 2; Const (VI32 64)
].

(** [pad-sha512-data]: /repo/clar2wasm/src/standard/standard.wat lines 2956-3029
    locals: 0=offset, 1=length, 2=length_after_padding, 3=message_length_64 *)
Definition f_pad_sha512_data : func := mkfunc [T32; T32] [T32; T64] [T32] [
  GGet "stack-pointer"%string; Const (VI32 648); Const (VI32 64); MemCopy;
  GGet "stack-pointer"%string; Const (VI32 704); B32 Add; LGet 0; LGet 1; MemCopy; LGet 1;
  Const (VI32 16); B32 Add; Const (VI32 127); B32 Or; Const (VI32 1); B32 Add; LSet 2;
  GGet "stack-pointer"%string; LGet 1; B32 Add; Const (VI32 128); Store S32 704;
  GGet "stack-pointer"%string; LGet 1; B32 Add; Const (VI32 705); B32 Add; Const (VI32 0); LGet 2;
  LGet 1; B32 Sub; Const (VI32 8); B32 Sub; MemFill; LGet 1; Const (VI32 3); B32 Shl; ExtU; LSet 3;
  GGet "stack-pointer"%string; LGet 2; B32 Add; Const (VI32 8); B32 Sub; LGet 3; Const (VI64 56);
  B64 Shl; LGet 3; Const (VI64 65280); B64 And; Const (VI64 40); B64 Shl; B64 Or; LGet 3;
  Const (VI64 16711680); B64 And; Const (VI64 24); B64 Shl; LGet 3; Const (VI64 4278190080);
  B64 And; Const (VI64 8); B64 Shl; B64 Or; B64 Or; LGet 3; Const (VI64 8); B64 ShrU;
  Const (VI64 4278190080); B64 And; LGet 3; Const (VI64 24); B64 ShrU; Const (VI64 16711680);
  B64 And; B64 Or; LGet 3; Const (VI64 40); B64 ShrU; Const (VI64 65280); B64 And; LGet 3;
  Const (VI64 56); B64 ShrU; B64 Or; B64 Or; B64 Or; Store S64 704; LGet 2
].

(** [process-sha512-block]: /repo/clar2wasm/src/standard/standard.wat lines 3031-3095
    locals: 0=current-block-index, 1=origin, 2=temp-block-data, 3=block-iteration-temp, 4=index *)
Definition f_process_sha512_block : func := mkfunc [T32] [T32; T32; T64; T32] [] [
  GGet "stack-pointer"%string; LSet 1; LGet 1; LGet 0; B32 Add; LSet 2; Const (VI32 0); LSet 4;
  Loop 0 0 [
    LGet 1; LGet 4; B32 Add; LGet 2; LGet 4; B32 Add; Load LV128 704;
    Const (VV128 10680758337341567148842519922299176455); VSwizzle; Store SV128 64; LGet 4;
    Const (VI32 16); B32 Add; LTee 4; Const (VI32 128); R32 LtU; BrIf 0
  ];
  Const (VI32 0); LSet 4;
  Loop 0 0 [
    LGet 1; LGet 4; B32 Add; LSet 2; LGet 2; Const (VI32 128); B32 Add; LGet 2; Load L64 64;
    LGet 2; Load L64 72; LSet 3; LGet 3; Const (VI64 1); B64 Rotr; LGet 3; Const (VI64 8);
    B64 Rotr; B64 Xor; LGet 3; Const (VI64 7); B64 ShrU; B64 Xor; B64 Add; LGet 2; Load L64 136;
    B64 Add; LGet 2; Load L64 176; LSet 3; LGet 3; Const (VI64 19); B64 Rotr; LGet 3;
    Const (VI64 61); B64 Rotr; B64 Xor; LGet 3; Const (VI64 6); B64 ShrU; B64 Xor; B64 Add;
    Store S64 64; LGet 4; Const (VI32 8); B32 Add; LTee 4; Const (VI32 512); R32 LtU; BrIf 0
  ]
].

(** [calculate-sha512]: /repo/clar2wasm/src/standard/standard.wat lines 3097-3179
    locals: 0=origin, 1=index, 2=a, 3=b, 4=c, 5=d, 6=e, 7=f, 8=g, 9=h, 10=temp1, 11=temp2 *)
Definition f_calculate_sha512 : func := mkfunc [] [T32; T32; T64; T64; T64; T64; T64; T64; T64; T64; T64; T64] [] [
  GGet "stack-pointer"%string; LSet 0; LGet 0; Load L64 0; LSet 2; LGet 0; Load L64 8; LSet 3;
  LGet 0; Load L64 16; LSet 4; LGet 0; Load L64 24; LSet 5; LGet 0; Load L64 32; LSet 6; LGet 0;
  Load L64 40; LSet 7; LGet 0; Load L64 48; LSet 8; LGet 0; Load L64 56; LSet 9; Const (VI32 0);
  LSet 1;
  Loop 0 0 [
    LGet 9; LGet 6; Const (VI64 14); B64 Rotr; LGet 6; Const (VI64 18); B64 Rotr; B64 Xor; LGet 6;
    Const (VI64 41); B64 Rotr; B64 Xor; B64 Add; LGet 6; LGet 7; B64 And; LGet 6;
    Const (VI64 18446744073709551615); B64 Xor; LGet 8; B64 And; B64 Xor; B64 Add; LGet 1;
    Load L64 712; B64 Add; LGet 0; LGet 1; B32 Add; Load L64 64; B64 Add; LSet 10; LGet 2;
    Const (VI64 28); B64 Rotr; LGet 2; Const (VI64 34); B64 Rotr; B64 Xor; LGet 2; Const (VI64 39);
    B64 Rotr; B64 Xor; LGet 2; LGet 3; B64 And; LGet 2; LGet 4; B64 And; B64 Xor; LGet 3; LGet 4;
    B64 And; B64 Xor; B64 Add; LSet 11; LGet 8; LSet 9; LGet 7; LSet 8; LGet 6; LSet 7; LGet 5;
    LGet 10; B64 Add; LSet 6; LGet 4; LSet 5; LGet 3; LSet 4; LGet 2; LSet 3; LGet 10; LGet 11;
    B64 Add; LSet 2; LGet 1; Const (VI32 8); B32 Add; LTee 1; Const (VI32 640); R32 LtU; BrIf 0
  ];
  LGet 0; LGet 0; Load L64 0; LGet 2; B64 Add; Store S64 0; LGet 0; LGet 0; Load L64 8; LGet 3;
  B64 Add; Store S64 8; LGet 0; LGet 0; Load L64 16; LGet 4; B64 Add; Store S64 16; LGet 0; LGet 0;
  Load L64 24; LGet 5; B64 Add; Store S64 24; LGet 0; LGet 0; Load L64 32; LGet 6; B64 Add;
  Store S64 32; LGet 0; LGet 0; Load L64 40; LGet 7; B64 Add; Store S64 40; LGet 0; LGet 0;
  Load L64 48; LGet 8; B64 Add; Store S64 48; LGet 0; LGet 0; Load L64 56; LGet 9; B64 Add;
  Store S64 56
].

(** [store-calculated-sha512]: /repo/clar2wasm/src/standard/standard.wat lines 3181-3210
    locals: 0=offset-result *)
Definition f_store_calculated_sha512 : func := mkfunc [T32] [] [] [
  LGet 0; GGet "stack-pointer"%string; Load LV128 0;
  Const (VV128 10680758337341567148842519922299176455); VSwizzle; Store SV128 0; LGet 0;
  GGet "stack-pointer"%string; Load LV128 16; Const (VV128 10680758337341567148842519922299176455);
  VSwizzle; Store SV128 16; LGet 0; GGet "stack-pointer"%string; Load LV128 32;
  Const (VV128 10680758337341567148842519922299176455); VSwizzle; Store SV128 32; LGet 0;
  GGet "stack-pointer"%string; Load LV128 48; Const (VV128 10680758337341567148842519922299176455);
  VSwizzle; Store SV128 48
].

(** [stdlib.convert-scalars-to-utf8]: /repo/clar2wasm/src/standard/standard.wat lines 3215-3343
    locals: 0=offset, 1=length, 2=output-offset, 3=i, 4=initial-output-offset, 5=scalar, 6=byte1, 7=byte2, 8=byte3, 9=byte4 *)
Definition f_convert_scalars_to_utf8 : func := mkfunc [T32; T32; T32] [T32; T32; T32; T32; T32; T32; T32] [T32] [
  LGet 2; LSet 4; Const (VI32 0); LSet 3; LGet 1; Eqz32;
  If 0 0 [
    Const (VI32 0); Return
  ] [
  ];
  Loop 0 0 [
    LGet 0; LGet 3; B32 Add; Load L32 0; LSet 5; LGet 5; Const (VI32 255); B32 And;
    Const (VI32 24); B32 Shl; LGet 5; Const (VI32 65280); B32 And; Const (VI32 8); B32 Shl; LGet 5;
    Const (VI32 16711680); B32 And; Const (VI32 8); B32 ShrU; LGet 5; Const (VI32 24); B32 ShrU;
    B32 Or; B32 Or; B32 Or; LSet 5; LGet 5; Const (VI32 128); R32 LtU;
    If 0 0 [
      LGet 2; LGet 5; Store S32_8 0; LGet 2; Const (VI32 1); B32 Add; LSet 2
    ] [
      LGet 5; Const (VI32 2048); R32 LtU;
      If 0 0 [
        Const (VI32 192); LGet 5; Const (VI32 6); B32 ShrU; B32 Or; LSet 6; Const (VI32 128);
        LGet 5; Const (VI32 63); B32 And; B32 Or; LSet 7; LGet 2; LGet 6; Store S32_8 0; LGet 2;
        Const (VI32 1); B32 Add; LSet 2; LGet 2; LGet 7; Store S32_8 0; LGet 2; Const (VI32 1);
        B32 Add; LSet 2
      ] [
        LGet 5; Const (VI32 65536); R32 LtU;
        If 0 0 [
          Const (VI32 224); LGet 5; Const (VI32 12); B32 ShrU; B32 Or; LSet 6; Const (VI32 128);
          LGet 5; Const (VI32 6); B32 ShrU; Const (VI32 63); B32 And; B32 Or; LSet 7;
          Const (VI32 128); LGet 5; Const (VI32 63); B32 And; B32 Or; LSet 8; LGet 2; LGet 6;
          Store S32_8 0; LGet 2; Const (VI32 1); B32 Add; LSet 2; LGet 2; LGet 7; Store S32_8 0;
          LGet 2; Const (VI32 1); B32 Add; LSet 2; LGet 2; LGet 8; Store S32_8 0; LGet 2;
          Const (VI32 1); B32 Add; LSet 2
        ] [
          LGet 5; Const (VI32 1114112); R32 LtU;
          If 0 0 [
            Const (VI32 240); LGet 5; Const (VI32 18); B32 ShrU; B32 Or; LSet 6; Const (VI32 128);
            LGet 5; Const (VI32 12); B32 ShrU; Const (VI32 63); B32 And; B32 Or; LSet 7;
            Const (VI32 128); LGet 5; Const (VI32 6); B32 ShrU; Const (VI32 63); B32 And; B32 Or;
            LSet 8; Const (VI32 128); LGet 5; Const (VI32 63); B32 And; B32 Or; LSet 9; LGet 2;
            LGet 6; Store S32_8 0; LGet 2; Const (VI32 1); B32 Add; LSet 2; LGet 2; LGet 7;
            Store S32_8 0; LGet 2; Const (VI32 1); B32 Add; LSet 2; LGet 2; LGet 8; Store S32_8 0;
            LGet 2; Const (VI32 1); B32 Add; LSet 2; LGet 2; LGet 9; Store S32_8 0; LGet 2;
            Const (VI32 1); B32 Add; LSet 2
          ] [
          ]
        ]
      ]
    ];
    LGet 3; Const (VI32 4); B32 Add; LSet 3; LGet 3; LGet 1; R32 LtU; BrIf 0
  ];
  LGet 2; LGet 4; B32 Sub
].

(** [stdlib.is-valid-string-ascii]: /repo/clar2wasm/src/standard/standard.wat lines 3347-3368
    locals: 0=offset, 1=length, 2=char, 3=current_length *)
Definition f_is_valid_string_ascii : func := mkfunc [T32; T32] [T32; T32] [T32] [
  Loop 0 0 [
    LGet 1; LTee 3;
    If 0 0 [
      LGet 0; Load L32_8u 0; LSet 2; LGet 0; Const (VI32 1); B32 Add; LSet 0; LGet 1;
      Const (VI32 1); B32 Sub; LSet 1; LGet 2; Const (VI32 32); B32 Sub; Const (VI32 95); R32 LtU;
      BrIf 1; Const (VI32 13824); LGet 2; B32 ShrU; LGet 2; Const (VI32 14); R32 LtU; B32 And;
      BrIf 1
    ] [
    ]
  ];
  LGet 3; Eqz32
].

(** [stdlib.utf8-to-string-utf8]: /repo/clar2wasm/src/standard/standard.wat lines 3370-3509
    locals: 0=offset, 1=len, 2=output-offset, 3=max-len, 4=scalar, 5=byte, 6=writeptr *)
Definition f_utf8_to_string_utf8 : func := mkfunc [T32; T32; T32; T32] [T32; T32; T32] [T32; T32; T32] [
  LGet 1; Eqz32;
  If 0 0 [
    Const (VI32 1); LGet 2; Const (VI32 0); Return
  ] [
  ];
  LGet 2; LSet 6;
  Loop 0 0 [
    LGet 3; Const (VI32 1); B32 Sub; LTee 3; Const (VI32 0); R32 LtS;
    If 0 0 [
      Const (VI32 0); Const (VI32 0); Const (VI32 0); Return
    ] [
    ];
    LGet 0; Load L32_8u 0; LSet 4; LGet 4; Const (VI32 128); R32 LtU;
    If 0 0 [
      LGet 0; Const (VI32 1); B32 Add; LSet 0; LGet 1; Const (VI32 1); B32 Sub; LSet 1
    ] [
      LGet 4; Const (VI32 224); B32 And; Const (VI32 192); R32 Eq;
      If 0 0 [
        LGet 4; Const (VI32 31); B32 And; Const (VI32 6); B32 Shl; LSet 4; LGet 0; Load L32_8u 1;
        LSet 5; LGet 5; Const (VI32 192); B32 And; Const (VI32 128); R32 Eq;
        If 0 0 [
          LGet 4; LGet 5; Const (VI32 63); B32 And; B32 Or; LSet 4
        ] [
          Const (VI32 0); Const (VI32 0); Const (VI32 0); Return
        ];
        LGet 4; Const (VI32 128); R32 LtU;
        If 0 0 [
          Const (VI32 0); Const (VI32 0); Const (VI32 0); Return
        ] [
        ];
        LGet 0; Const (VI32 2); B32 Add; LSet 0; LGet 1; Const (VI32 2); B32 Sub; LSet 1
      ] [
        LGet 4; Const (VI32 240); B32 And; Const (VI32 224); R32 Eq;
        If 0 0 [
          LGet 4; Const (VI32 15); B32 And; Const (VI32 12); B32 Shl; LSet 4; LGet 0;
          Load L32_8u 1; LSet 5; LGet 5; Const (VI32 192); B32 And; Const (VI32 128); R32 Eq;
          If 0 0 [
            LGet 4; LGet 5; Const (VI32 63); B32 And; Const (VI32 6); B32 Shl; B32 Or; LSet 4
          ] [
            Const (VI32 0); Const (VI32 0); Const (VI32 0); Return
          ];
          LGet 0; Load L32_8u 2; LSet 5; LGet 5; Const (VI32 192); B32 And; Const (VI32 128);
          R32 Eq;
          If 0 0 [
            LGet 4; LGet 5; Const (VI32 63); B32 And; B32 Or; LSet 4
          ] [
            Const (VI32 0); Const (VI32 0); Const (VI32 0); Return
          ];
          LGet 4; Const (VI32 4294965248); B32 And; Const (VI32 55296); R32 Eq; LGet 4;
          Const (VI32 2048); R32 LtU; B32 Or;
          If 0 0 [
            Const (VI32 0); Const (VI32 0); Const (VI32 0); Return
          ] [
          ];
          LGet 0; Const (VI32 3); B32 Add; LSet 0; LGet 1; Const (VI32 3); B32 Sub; LSet 1
        ] [
          LGet 4; Const (VI32 248); B32 And; Const (VI32 240); R32 Eq;
          If 0 0 [
            LGet 4; Const (VI32 7); B32 And; Const (VI32 18); B32 Shl; LSet 4; LGet 0;
            Load L32_8u 1; LSet 5; LGet 5; Const (VI32 192); B32 And; Const (VI32 128); R32 Eq;
            If 0 0 [
              LGet 4; LGet 5; Const (VI32 63); B32 And; Const (VI32 12); B32 Shl; B32 Or; LSet 4
            ] [
              Const (VI32 0); Const (VI32 0); Const (VI32 0); Return
            ];
            LGet 0; Load L32_8u 2; LSet 5; LGet 5; Const (VI32 192); B32 And; Const (VI32 128);
            R32 Eq;
            If 0 0 [
              LGet 4; LGet 5; Const (VI32 63); B32 And; Const (VI32 6); B32 Shl; B32 Or; LSet 4
            ] [
              Const (VI32 0); Const (VI32 0); Const (VI32 0); Return
            ];
            LGet 0; Load L32_8u 3; LSet 5; LGet 5; Const (VI32 192); B32 And; Const (VI32 128);
            R32 Eq;
            If 0 0 [
              LGet 4; LGet 5; Const (VI32 63); B32 And; B32 Or; LSet 4
            ] [
              Const (VI32 0); Const (VI32 0); Const (VI32 0); Return
            ];
            LGet 4; Const (VI32 1114112); B32 Sub; Const (VI32 4293918720); R32 LtU;
            If 0 0 [
              Const (VI32 0); Const (VI32 0); Const (VI32 0); Return
            ] [
            ];
            LGet 0; Const (VI32 4); B32 Add; LSet 0; LGet 1; Const (VI32 4); B32 Sub; LSet 1
          ] [
            Const (VI32 0); Const (VI32 0); Const (VI32 0); Return
          ]
        ]
      ]
    ];
    LGet 6; LGet 4; Const (VI32 24); B32 Shl; LGet 4; Const (VI32 65280); B32 And; Const (VI32 8);
    B32 Shl; B32 Or; LGet 4; Const (VI32 8); B32 ShrU; Const (VI32 65280); B32 And; LGet 4;
    Const (VI32 24); B32 ShrU; B32 Or; B32 Or; Store S32 0; LGet 6; Const (VI32 4); B32 Add;
    LSet 6; LGet 1; BrIf 0
  ];
  Const (VI32 1); LGet 2; LGet 6; LGet 2; B32 Sub
].

(** [compare-clarity-names]: /repo/clar2wasm/src/standard/standard.wat lines 3511-3536
    locals: 0=offset_a, 1=len_a, 2=offset_b, 3=len_b, 4=min_len, 5=a, 6=b *)
Definition f_compare_clarity_names : func := mkfunc [T32; T32; T32; T32] [T32; T32; T32] [T32] [
  LGet 1; LGet 3; LGet 1; LGet 3; R32 LtU; Select; LSet 4;
  Loop 0 0 [
    LGet 0; Load L32_8u 0; LTee 5; LGet 2; Load L32_8u 0; LTee 6; R32 Eq;
    If 0 0 [
      LGet 0; Const (VI32 1); B32 Add; LSet 0; LGet 2; Const (VI32 1); B32 Add; LSet 2; LGet 4;
      Const (VI32 1); B32 Sub; LTee 4; BrIf 1
    ] [
    ]
  ];
  Const (VI32 4294967295); LGet 1; LGet 3; R32 Ne; LGet 1; LGet 3; R32 LtU; Select;
  Const (VI32 4294967295); LGet 5; LGet 6; R32 Ne; LGet 5; LGet 6; R32 LtU; Select; LGet 5; LGet 6;
  R32 Eq; Select
].

(** [stdlib.bsearch-clarity-name]: /repo/clar2wasm/src/standard/standard.wat lines 3538-3581
    locals: 0=offset_list, 1=len_list, 2=offset_elem, 3=len_elem, 4=size, 5=i, 6=j, 7=mid, 8=cmp, 9=offset_len *)
Definition f_bsearch_clarity_name : func := mkfunc [T32; T32; T32; T32] [T32; T32; T32; T32; T32; T32] [T32] [
  LGet 0; Load L32 0; LTee 4; LSet 6; LGet 0; Const (VI32 4); B32 Add; LSet 0; LGet 0; LGet 4;
  Const (VI32 2); B32 Shl; B32 Add; LSet 9;
  Loop 0 0 [
    LGet 5; LGet 4; Const (VI32 1); B32 ShrU; B32 Add; LSet 7; LGet 2; LGet 3; LGet 0; LGet 7;
    Const (VI32 2); B32 Shl; B32 Add; Load L32 0; LGet 9; LGet 7; B32 Add; Load L32_8u 0;
    Call "compare-clarity-names"%string; LSet 8; LGet 8; Eqz32;
    If 0 0 [
      LGet 7; Return
    ] [
    ];
    LGet 5; LGet 7; Const (VI32 1); B32 Add; LGet 8; Const (VI32 4294967295); R32 Eq; Select;
    LSet 5; LGet 6; LGet 7; LGet 8; Const (VI32 1); R32 Eq; Select; LSet 6; LGet 6; LGet 5;
    B32 Sub; LSet 4; LGet 5; LGet 6; R32 LtU; BrIf 0
  ];
  Const (VI32 4294967295)
].

(** [stdlib.skip-unknown-value]: /repo/clar2wasm/src/standard/standard.wat lines 3583-3597
    locals: 0=offset, 1=offset_end, 2=id *)
Definition f_skip_unknown_value : func := mkfunc [T32; T32] [T32] [T32] [
  LGet 0; LGet 1; R32 Eq;
  If 0 1 [
    LGet 0
  ] [
    LGet 0; Load L32_8u 0; LTee 2; Const (VI32 14); R32 GtU;
    If 0 0 [
      Const (VI32 0); Return
    ] [
    ];
    LGet 0; Const (VI32 1); B32 Add; LGet 1; LGet 2; Const (VI32 5); B32 Add;
    CallInd [T32; T32] [T32]
  ]
].

(** [skip-int128]: /repo/clar2wasm/src/standard/standard.wat lines 3599-3606
    locals: 0=offset, 1=offset_end *)
Definition f_skip_int128 : func := mkfunc [T32; T32] [] [T32] [
  LGet 0; Const (VI32 16); B32 Add; LTee 0; Const (VI32 0); LGet 0; LGet 1; R32 LeU; Select
].

(** [skip-buffer]: /repo/clar2wasm/src/standard/standard.wat lines 3608-3620
    locals: 0=offset, 1=offset_end, 2=size *)
Definition f_skip_buffer : func := mkfunc [T32; T32] [T32] [T32] [
  LGet 0; Const (VI32 4); B32 Add; LGet 1; R32 GtU;
  If 0 0 [
    Const (VI32 0); Return
  ] [
  ];
  LGet 0; Call "stdlib.load-i32-be"%string; LSet 2; LGet 0; Const (VI32 4); B32 Add; LGet 2;
  B32 Add; LTee 0; Const (VI32 0); LGet 0; LGet 1; R32 LeU; Select
].

(** [skip-boolean-or-none]: /repo/clar2wasm/src/standard/standard.wat lines 3622-3625
    locals: 0=offset, 1=offset_end *)
Definition f_skip_boolean_or_none : func := mkfunc [T32; T32] [] [T32] [
  LGet 0
].

(** [skip-principal]: /repo/clar2wasm/src/standard/standard.wat lines 3627-3643
    locals: 0=offset, 1=offset_end *)
Definition f_skip_principal : func := mkfunc [T32; T32] [] [T32] [
  LGet 1; LGet 0; Const (VI32 21); B32 Add; LTee 1; R32 GeU;
  If 0 1 [
    LGet 1; Const (VI32 0); LGet 0; Load L32_8u 0; Const (VI32 32); R32 LeU; Select
  ] [
    Const (VI32 0)
  ]
].

(** [skip-contract]: /repo/clar2wasm/src/standard/standard.wat lines 3645-3675
    locals: 0=offset, 1=offset_end *)
Definition f_skip_contract : func := mkfunc [T32; T32] [] [T32] [
  LGet 0; LGet 1; Call "skip-principal"%string; LTee 0; Const (VI32 0); R32 Ne; LGet 1; LGet 0;
  R32 GtU; B32 And;
  If 0 0 [
    LGet 1; LGet 0; Load L32_8u 0; LTee 1; R32 GeU;
    If 0 0 [
      LGet 0; Const (VI32 1); B32 Add; LSet 0; LGet 0; LGet 1; B32 Add; Const (VI32 0); LGet 0;
      LGet 1; Call "stdlib.check-clarity-name"%string; Select; Return
    ] [
    ]
  ] [
  ];
  Const (VI32 0)
].

(** [skip-some-ok-err]: /repo/clar2wasm/src/standard/standard.wat lines 3677-3680
    locals: 0=offset, 1=offset_end *)
Definition f_skip_some_ok_err : func := mkfunc [T32; T32] [] [T32] [
  LGet 0; LGet 1; Call "stdlib.skip-unknown-value"%string
].

(** [skip-tuple]: /repo/clar2wasm/src/standard/standard.wat lines 3682-3712
    locals: 0=offset, 1=offset_end, 2=tuple_size, 3=name_size *)
Definition f_skip_tuple : func := mkfunc [T32; T32] [T32; T32] [T32] [
  LGet 0; Const (VI32 4); B32 Add; LGet 1; R32 GtU;
  If 0 0 [
    Const (VI32 0); Return
  ] [
  ];
  LGet 0; Call "stdlib.load-i32-be"%string; LSet 2; LGet 2; Eqz32;
  If 0 0 [
    Const (VI32 0); Return
  ] [
  ];
  LGet 0; Const (VI32 4); B32 Add; LSet 0;
  Block 0 0 [
    Loop 0 0 [
      LGet 0; LGet 1; R32 GeU; BrIf 1; LGet 0; Load L32_8u 0; LSet 3; LGet 0; Const (VI32 1);
      B32 Add; LTee 0; LGet 3; Call "stdlib.check-clarity-name"%string; Eqz32; BrIf 1; LGet 0;
      LGet 3; B32 Add; LGet 1; Call "stdlib.skip-unknown-value"%string; LTee 0; Eqz32; BrIf 1;
      LGet 2; Const (VI32 1); B32 Sub; LTee 2; BrIf 0
    ]
  ];
  Const (VI32 0); LGet 0; LGet 2; Select
].

(** [skip-string-ascii]: /repo/clar2wasm/src/standard/standard.wat lines 3714-3732
    locals: 0=offset, 1=offset_end, 2=size *)
Definition f_skip_string_ascii : func := mkfunc [T32; T32] [T32] [T32] [
  LGet 1; LGet 0; B32 Sub; Const (VI32 4); R32 LtS;
  If 0 0 [
    Const (VI32 0); Return
  ] [
  ];
  LGet 0; Call "stdlib.load-i32-be"%string; LSet 2; LGet 1; LGet 0; Const (VI32 4); B32 Add;
  LTee 0; B32 Sub; LGet 2; R32 LtS;
  If 0 0 [
    Const (VI32 0); Return
  ] [
  ];
  LGet 0; LGet 2; B32 Add; Const (VI32 0); LGet 0; LGet 2;
  Call "stdlib.is-valid-string-ascii"%string; Select
].

(** [skip-string-utf8]: /repo/clar2wasm/src/standard/standard.wat lines 3734-3847
    locals: 0=offset, 1=offset_end, 2=size, 3=char, 4=byte *)
Definition f_skip_string_utf8 : func := mkfunc [T32; T32] [T32; T32; T32] [T32] [
  LGet 1; LGet 0; B32 Sub; Const (VI32 4); R32 LtS;
  If 0 0 [
    Const (VI32 0); Return
  ] [
  ];
  LGet 0; Call "stdlib.load-i32-be"%string; LSet 2; LGet 1; LGet 0; Const (VI32 4); B32 Add;
  LTee 0; B32 Sub; LGet 2; R32 LtS;
  If 0 0 [
    Const (VI32 0); Return
  ] [
  ];
  Block 0 0 [
    LGet 2; Eqz32; BrIf 0;
    Loop 0 0 [
      LGet 0; Load L32_8u 0; LSet 3; LGet 3; Const (VI32 128); R32 LtU;
      If 0 0 [
        LGet 0; Const (VI32 1); B32 Add; LSet 0; LGet 2; Const (VI32 1); B32 Sub; LTee 2; BrIf 1;
        Br 2
      ] [
      ];
      LGet 3; Const (VI32 224); B32 And; Const (VI32 192); R32 Eq;
      If 0 0 [
        LGet 2; Const (VI32 2); R32 LtU; BrIf 2; LGet 0; Load L32_8u 1; LSet 4; LGet 4;
        Const (VI32 192); B32 And; Const (VI32 128); R32 Ne; BrIf 2; LGet 3; Const (VI32 31);
        B32 And; Const (VI32 6); B32 Shl; LGet 4; Const (VI32 63); B32 And; B32 Or; LSet 3; LGet 3;
        Const (VI32 128); R32 LtU; BrIf 2; LGet 0; Const (VI32 2); B32 Add; LSet 0; LGet 2;
        Const (VI32 2); B32 Sub; LTee 2; BrIf 1; Br 2
      ] [
      ];
      LGet 3; Const (VI32 240); B32 And; Const (VI32 224); R32 Eq;
      If 0 0 [
        LGet 2; Const (VI32 3); R32 LtU; BrIf 2; LGet 0; Load L32_8u 1; LSet 4; LGet 4;
        Const (VI32 192); B32 And; Const (VI32 128); R32 Ne; BrIf 2; LGet 3; Const (VI32 15);
        B32 And; Const (VI32 12); B32 Shl; LGet 4; Const (VI32 63); B32 And; Const (VI32 6);
        B32 Shl; B32 Or; LGet 0; Load L32_8u 2; LTee 4; Const (VI32 63); B32 And; B32 Or; LSet 3;
        LGet 4; Const (VI32 192); B32 And; Const (VI32 128); R32 Ne; BrIf 2; LGet 3;
        Const (VI32 2048); R32 LtU; BrIf 2; LGet 3; Const (VI32 4294965248); B32 And;
        Const (VI32 55296); R32 Eq; BrIf 2; LGet 0; Const (VI32 3); B32 Add; LSet 0; LGet 2;
        Const (VI32 3); B32 Sub; LTee 2; BrIf 1; Br 2
      ] [
      ];
      LGet 3; Const (VI32 248); B32 And; Const (VI32 240); R32 Eq;
      If 0 0 [
        LGet 2; Const (VI32 4); R32 LtU; BrIf 2; LGet 0; Load L32_8u 1; LSet 4; LGet 4;
        Const (VI32 192); B32 And; Const (VI32 128); R32 Ne; BrIf 2; LGet 3; Const (VI32 7);
        B32 And; Const (VI32 18); B32 Shl; LGet 4; Const (VI32 63); B32 And; Const (VI32 12);
        B32 Shl; B32 Or; LGet 0; Load L32_8u 2; LTee 4; Const (VI32 63); B32 And; Const (VI32 6);
        B32 Shl; B32 Or; LSet 3; LGet 4; Const (VI32 192); B32 And; Const (VI32 128); R32 Ne;
        BrIf 2; LGet 0; Load L32_8u 3; LSet 4; LGet 4; Const (VI32 192); B32 And; Const (VI32 128);
        R32 Ne; BrIf 2; LGet 3; LGet 4; Const (VI32 63); B32 And; B32 Or; LSet 3; LGet 3;
        Const (VI32 1114112); B32 Sub; Const (VI32 4293918720); R32 LtU; BrIf 2; LGet 0;
        Const (VI32 4); B32 Add; LSet 0; LGet 2; Const (VI32 4); B32 Sub; LTee 2; BrIf 1
      ] [
      ]
    ]
  ];
  Const (VI32 0); LGet 0; LGet 2; Select
].

(** [stdlib.check-clarity-name]: /repo/clar2wasm/src/standard/standard.wat lines 3849-3941
    locals: 0=offset, 1=size, 2=char *)
Definition f_check_clarity_name : func := mkfunc [T32; T32] [T32] [T32] [
  LGet 1; Const (VI32 129); B32 Sub; Const (VI32 4294967168); R32 LtU;
  If 0 0 [
    Const (VI32 0); Return
  ] [
  ];
  LGet 0; Load L32_8u 0; Const (VI32 2097119); B32 And; Const (VI32 65); B32 Sub; Const (VI32 26);
  R32 LtU;
  If 0 0 [
    Block 0 0 [
      Loop 0 0 [
        LGet 1; Const (VI32 1); B32 Sub; LTee 1; Eqz32; BrIf 1; LGet 0; Const (VI32 1); B32 Add;
        LTee 0; Load L32_8u 0; LSet 2; LGet 2; Const (VI32 2097119); B32 And; Const (VI32 65);
        B32 Sub; Const (VI32 26); R32 LtU; BrIf 0; LGet 2; Const (VI32 48); B32 Sub;
        Const (VI32 10); R32 LtU; BrIf 0; LGet 2; Const (VI32 33); B32 Sub; LTee 2;
        Const (VI32 63); R32 LtU; Const (VI64 4611686020440675841); LGet 2; ExtU; B64 ShrU; Wrap;
        B32 And; BrIf 0
      ]
    ];
    LGet 1; Eqz32; Return
  ] [
  ];
  LGet 1; Const (VI32 1); R32 Eq;
  If 0 0 [
    LGet 0; Load L32_8u 0; LTee 2; Const (VI32 63); R32 LtU; Const (VI64 8070639648247906304);
    LGet 2; ExtU; B64 ShrU; Wrap; B32 And; Return
  ] [
  ];
  LGet 1; Const (VI32 2); R32 Eq;
  If 0 0 [
    LGet 0; Load L32_16u 0; Const (VI32 4294967293); B32 And; Const (VI32 15676); R32 Eq; Return
  ] [
  ];
  Const (VI32 0)
].

(** the functions of the standard library, by WAT name *)
Definition std_funs : list (string * func) := [
  ("stdlib.runtime-error"%string, f_runtime_error);
  ("stdlib.add-int128"%string, f_add_int128);
  ("stdlib.add-int"%string, f_add_int);
  ("stdlib.add-uint"%string, f_add_uint);
  ("stdlib.sub-int128"%string, f_sub_int128);
  ("stdlib.sub-int"%string, f_sub_int);
  ("stdlib.sub-uint"%string, f_sub_uint);
  ("stdlib.mul-int128"%string, f_mul_int128);
  ("stdlib.mul-uint"%string, f_mul_uint);
  ("stdlib.mul-int"%string, f_mul_int);
  ("stdlib.div-int128"%string, f_div_int128);
  ("stdlib.div-uint"%string, f_div_uint);
  ("stdlib.div-int"%string, f_div_int);
  ("stdlib.mod-uint"%string, f_mod_uint);
  ("stdlib.mod-int"%string, f_mod_int);
  ("stdlib.lt-uint"%string, f_lt_uint);
  ("stdlib.gt-uint"%string, f_gt_uint);
  ("stdlib.le-uint"%string, f_le_uint);
  ("stdlib.ge-uint"%string, f_ge_uint);
  ("stdlib.lt-int"%string, f_lt_int);
  ("stdlib.gt-int"%string, f_gt_int);
  ("stdlib.le-int"%string, f_le_int);
  ("stdlib.ge-int"%string, f_ge_int);
  ("stdlib.lt-buff"%string, f_lt_buff);
  ("stdlib.gt-buff"%string, f_gt_buff);
  ("stdlib.le-buff"%string, f_le_buff);
  ("stdlib.ge-buff"%string, f_ge_buff);
  ("log2"%string, f_log2);
  ("stdlib.log2-uint"%string, f_log2_uint);
  ("stdlib.log2-int"%string, f_log2_int);
  ("stdlib.sqrti-uint"%string, f_sqrti_uint);
  ("stdlib.sqrti-int"%string, f_sqrti_int);
  ("stdlib.bit-and"%string, f_bit_and);
  ("stdlib.bit-not"%string, f_bit_not);
  ("stdlib.bit-or"%string, f_bit_or);
  ("stdlib.bit-xor"%string, f_bit_xor);
  ("stdlib.bit-shift-left"%string, f_bit_shift_left);
  ("stdlib.bit-shift-right-uint"%string, f_bit_shift_right_uint);
  ("stdlib.bit-shift-right-int"%string, f_bit_shift_right_int);
  ("clz-int128"%string, f_clz_int128);
  ("pow-inner"%string, f_pow_inner);
  ("stdlib.pow-uint"%string, f_pow_uint);
  ("stdlib.pow-int"%string, f_pow_int);
  ("stdlib.sha256-buf"%string, f_sha256_buf);
  ("stdlib.sha256-int"%string, f_sha256_int);
  ("extend-data"%string, f_extend_data);
  ("block64"%string, f_block64);
  ("working-vars"%string, f_working_vars);
  ("stdlib.hash160-buf"%string, f_hash160_buf);
  ("stdlib.hash160-int"%string, f_hash160_int);
  ("hash160-pad"%string, f_hash160_pad);
  ("hash160-compress"%string, f_hash160_compress);
  ("hash160-f1"%string, f_hash160_f1);
  ("hash160-f2"%string, f_hash160_f2);
  ("hash160-f3"%string, f_hash160_f3);
  ("hash160-f4"%string, f_hash160_f4);
  ("hash160-f5"%string, f_hash160_f5);
  ("stdlib.store-i32-be"%string, f_store_i32_be);
  ("stdlib.load-i32-be"%string, f_load_i32_be);
  ("stdlib.store-i64-be"%string, f_store_i64_be);
  ("stdlib.buff-to-uint-be"%string, f_buff_to_uint_be);
  ("stdlib.buff-to-uint-le"%string, f_buff_to_uint_le);
  ("stdlib.not"%string, f_not);
  ("stdlib.principal-construct"%string, f_principal_construct);
  ("stdlib.is-valid-contract-name"%string, f_is_valid_contract_name);
  ("stdlib.is-alpha"%string, f_is_alpha);
  ("stdlib.is-valid-char"%string, f_is_valid_char);
  ("stdlib.is-transient"%string, f_is_transient);
  ("stdlib.is-version-valid"%string, f_is_version_valid);
  ("stdlib.string-to-uint"%string, f_string_to_uint);
  ("stdlib.utf8-to-uint"%string, f_utf8_to_uint);
  ("stdlib.string-to-int"%string, f_string_to_int);
  ("stdlib.utf8-to-int"%string, f_utf8_to_int);
  ("stdlib.uint-to-string"%string, f_uint_to_string);
  ("stdlib.int-to-string"%string, f_int_to_string);
  ("stdlib.uint-to-utf8"%string, f_uint_to_utf8);
  ("stdlib.int-to-utf8"%string, f_int_to_utf8);
  ("stdlib.to-uint"%string, f_to_uint);
  ("stdlib.to-int"%string, f_to_int);
  ("stdlib.sha512-buf"%string, f_sha512_buf);
  ("stdlib.sha512-int"%string, f_sha512_int);
  ("pad-sha512-data"%string, f_pad_sha512_data);
  ("process-sha512-block"%string, f_process_sha512_block);
  ("calculate-sha512"%string, f_calculate_sha512);
  ("store-calculated-sha512"%string, f_store_calculated_sha512);
  ("stdlib.convert-scalars-to-utf8"%string, f_convert_scalars_to_utf8);
  ("stdlib.is-valid-string-ascii"%string, f_is_valid_string_ascii);
  ("stdlib.utf8-to-string-utf8"%string, f_utf8_to_string_utf8);
  ("compare-clarity-names"%string, f_compare_clarity_names);
  ("stdlib.bsearch-clarity-name"%string, f_bsearch_clarity_name);
  ("stdlib.skip-unknown-value"%string, f_skip_unknown_value);
  ("skip-int128"%string, f_skip_int128);
  ("skip-buffer"%string, f_skip_buffer);
  ("skip-boolean-or-none"%string, f_skip_boolean_or_none);
  ("skip-principal"%string, f_skip_principal);
  ("skip-contract"%string, f_skip_contract);
  ("skip-some-ok-err"%string, f_skip_some_ok_err);
  ("skip-tuple"%string, f_skip_tuple);
  ("skip-string-ascii"%string, f_skip_string_ascii);
  ("skip-string-utf8"%string, f_skip_string_utf8);
  ("stdlib.check-clarity-name"%string, f_check_clarity_name)
].

(** imported host functions (standard.wat lines 17-328): name, parameter and result types *)
Definition std_imports : list (string * (list vt * list vt)) := [
  ("stdlib.define_function"%string, ([T32; T32; T32], []));
  ("stdlib.define_variable"%string, ([T32; T32; T32; T32], []));
  ("stdlib.define_ft"%string, ([T32; T32; T32; T64; T64], []));
  ("stdlib.define_nft"%string, ([T32; T32], []));
  ("stdlib.define_map"%string, ([T32; T32], []));
  ("stdlib.define_trait"%string, ([T32; T32], []));
  ("stdlib.impl_trait"%string, ([T32; T32], []));
  ("stdlib.get_variable"%string, ([T32; T32; T32; T32], []));
  ("stdlib.set_variable"%string, ([T32; T32; T32; T32], []));
  ("stdlib.print"%string, ([T32; T32; T32; T32], []));
  ("stdlib.enter_as_contract"%string, ([], []));
  ("stdlib.exit_as_contract"%string, ([], []));
  ("stdlib.enter_at_block"%string, ([T32; T32], []));
  ("stdlib.exit_at_block"%string, ([], []));
  ("stdlib.stx_get_balance"%string, ([T32; T32], [T64; T64]));
  ("stdlib.stx_account"%string, ([T32; T32], [T64; T64; T64; T64; T64; T64]));
  ("stdlib.stx_burn"%string, ([T64; T64; T32; T32], [T32; T32; T64; T64]));
  ("stdlib.stx_transfer"%string, ([T64; T64; T32; T32; T32; T32; T32; T32], [T32; T32; T64; T64]));
  ("stdlib.ft_get_supply"%string, ([T32; T32], [T64; T64]));
  ("stdlib.ft_get_balance"%string, ([T32; T32; T32; T32], [T64; T64]));
  ("stdlib.ft_burn"%string, ([T32; T32; T64; T64; T32; T32], [T32; T32; T64; T64]));
  ("stdlib.ft_mint"%string, ([T32; T32; T64; T64; T32; T32], [T32; T32; T64; T64]));
  ("stdlib.ft_transfer"%string, ([T32; T32; T64; T64; T32; T32; T32; T32], [T32; T32; T64; T64]));
  ("stdlib.nft_get_owner"%string, ([T32; T32; T32; T32; T32; T32], [T32; T32; T32]));
  ("stdlib.nft_burn"%string, ([T32; T32; T32; T32; T32; T32], [T32; T32; T64; T64]));
  ("stdlib.nft_mint"%string, ([T32; T32; T32; T32; T32; T32], [T32; T32; T64; T64]));
  ("stdlib.nft_transfer"%string, ([T32; T32; T32; T32; T32; T32; T32; T32], [T32; T32; T64; T64]));
  ("stdlib.map_get"%string, ([T32; T32; T32; T32; T32; T32], []));
  ("stdlib.map_set"%string, ([T32; T32; T32; T32; T32; T32], [T32]));
  ("stdlib.map_insert"%string, ([T32; T32; T32; T32; T32; T32], [T32]));
  ("stdlib.map_delete"%string, ([T32; T32; T32; T32], [T32]));
  ("stdlib.get_block_info_time_property"%string, ([T64; T64; T32; T32], []));
  ("stdlib.get_block_info_vrf_seed_property"%string, ([T64; T64; T32; T32], []));
  ("stdlib.get_block_info_header_hash_property"%string, ([T64; T64; T32; T32], []));
  ("stdlib.get_block_info_burnchain_header_hash_property"%string, ([T64; T64; T32; T32], []));
  ("stdlib.get_block_info_identity_header_hash_property"%string, ([T64; T64; T32; T32], []));
  ("stdlib.get_block_info_miner_address_property"%string, ([T64; T64; T32; T32], []));
  ("stdlib.get_block_info_miner_spend_winner_property"%string, ([T64; T64; T32; T32], []));
  ("stdlib.get_block_info_miner_spend_total_property"%string, ([T64; T64; T32; T32], []));
  ("stdlib.get_block_info_block_reward_property"%string, ([T64; T64; T32; T32], []));
  ("stdlib.get_burn_block_info_header_hash_property"%string, ([T64; T64; T32; T32], []));
  ("stdlib.get_burn_block_info_pox_addrs_property"%string, ([T64; T64; T32; T32], []));
  ("stdlib.get_stacks_block_info_time_property"%string, ([T64; T64; T32; T32], []));
  ("stdlib.get_stacks_block_info_header_hash_property"%string, ([T64; T64; T32; T32], []));
  ("stdlib.get_stacks_block_info_identity_header_hash_property"%string, ([T64; T64; T32; T32], []));
  ("stdlib.get_tenure_info_burnchain_header_hash_property"%string, ([T64; T64; T32; T32], []));
  ("stdlib.get_tenure_info_miner_address_property"%string, ([T64; T64; T32; T32], []));
  ("stdlib.get_tenure_info_time_property"%string, ([T64; T64; T32; T32], []));
  ("stdlib.get_tenure_info_vrf_seed_property"%string, ([T64; T64; T32; T32], []));
  ("stdlib.get_tenure_info_block_reward_property"%string, ([T64; T64; T32; T32], []));
  ("stdlib.get_tenure_info_miner_spend_total_property"%string, ([T64; T64; T32; T32], []));
  ("stdlib.get_tenure_info_miner_spend_winner_property"%string, ([T64; T64; T32; T32], []));
  ("stdlib.contract_call"%string, ([T32; T32; T32; T32; T32; T32; T32; T32; T32; T32], []));
  ("stdlib.begin_public_call"%string, ([], []));
  ("stdlib.begin_read_only_call"%string, ([], []));
  ("stdlib.commit_call"%string, ([], []));
  ("stdlib.roll_back_call"%string, ([], []));
  ("stdlib.keccak256"%string, ([T32; T32; T32; T32], [T32; T32]));
  ("stdlib.sha512_256"%string, ([T32; T32; T32; T32], [T32; T32]));
  ("stdlib.secp256k1_recover"%string, ([T32; T32; T32; T32; T32; T32], []));
  ("stdlib.secp256k1_verify"%string, ([T32; T32; T32; T32; T32; T32], [T32]));
  ("stdlib.principal_of"%string, ([T32; T32; T32], [T32; T32; T32; T64; T64]));
  ("stdlib.tx_sender"%string, ([T32; T32], [T32; T32]));
  ("stdlib.contract_caller"%string, ([T32; T32], [T32; T32]));
  ("stdlib.tx_sponsor"%string, ([T32; T32], [T32; T32; T32]));
  ("stdlib.block_height"%string, ([], [T64; T64]));
  ("stdlib.stacks_block_height"%string, ([], [T64; T64]));
  ("stdlib.tenure_height"%string, ([], [T64; T64]));
  ("stdlib.burn_block_height"%string, ([], [T64; T64]));
  ("stdlib.stx_liquid_supply"%string, ([], [T64; T64]));
  ("stdlib.save_constant"%string, ([T32; T32; T32; T32], []));
  ("stdlib.load_constant"%string, ([T32; T32; T32; T32], []));
  ("skip-list"%string, ([T32; T32], [T32]));
  ("stdlib.is_in_regtest"%string, ([], [T32]));
  ("stdlib.is_in_mainnet"%string, ([], [T32]));
  ("stdlib.chain_id"%string, ([], [T64; T64]));
  ("log"%string, ([T64], []));
  ("debug_msg"%string, ([T32], []))
].

(** function table (standard.wat lines 384-387) *)
Definition std_table : list string := ["hash160-f1"%string; "hash160-f2"%string; "hash160-f3"%string; "hash160-f4"%string; "hash160-f5"%string; "skip-int128"%string; "skip-int128"%string; "skip-buffer"%string; "skip-boolean-or-none"%string; "skip-boolean-or-none"%string; "skip-principal"%string; "skip-contract"%string; "skip-some-ok-err"%string; "skip-some-ok-err"%string; "skip-boolean-or-none"%string; "skip-some-ok-err"%string; "skip-list"%string; "skip-tuple"%string; "skip-string-ascii"%string; "skip-string-utf8"%string].

(** globals with their initial values (standard.wat lines 342-348) *)
Definition std_globals : list (string * val) := [("stack-pointer"%string, VI32 0);
  ("runtime-error-code"%string, VI32 4294967295);
  ("runtime-error-arg-offset"%string, VI32 4294967295);
  ("runtime-error-arg-len"%string, VI32 4294967295);
  ("runtime-error-value-offset"%string, VI32 4294967295);
  ("runtime-error-type-ser-offset"%string, VI32 4294967295);
  ("runtime-error-type-ser-len"%string, VI32 4294967295)].

(** data segments (standard.wat lines 351-378): offset, bytes *)
Definition std_data : list (Z * list Z) := [
  (0, [103; 230; 9; 106; 133; 174; 103; 187; 114; 243; 110; 60; 58; 245; 79; 165; 127; 82; 14; 81; 140; 104; 5; 155;
    171; 217; 131; 31; 25; 205; 224; 91]);
  (32, [152; 47; 138; 66; 145; 68; 55; 113; 207; 251; 192; 181; 165; 219; 181; 233; 91; 194; 86; 57; 241; 17; 241; 89;
    164; 130; 63; 146; 213; 94; 28; 171; 152; 170; 7; 216; 1; 91; 131; 18; 190; 133; 49; 36; 195; 125; 12; 85;
    116; 93; 190; 114; 254; 177; 222; 128; 167; 6; 220; 155; 116; 241; 155; 193; 193; 105; 155; 228; 134; 71; 190; 239;
    198; 157; 193; 15; 204; 161; 12; 36; 111; 44; 233; 45; 170; 132; 116; 74; 220; 169; 176; 92; 218; 136; 249; 118;
    82; 81; 62; 152; 109; 198; 49; 168; 200; 39; 3; 176; 199; 127; 89; 191; 243; 11; 224; 198; 71; 145; 167; 213;
    81; 99; 202; 6; 103; 41; 41; 20; 133; 10; 183; 39; 56; 33; 27; 46; 252; 109; 44; 77; 19; 13; 56; 83;
    84; 115; 10; 101; 187; 10; 106; 118; 46; 201; 194; 129; 133; 44; 114; 146; 161; 232; 191; 162; 75; 102; 26; 168;
    112; 139; 75; 194; 163; 81; 108; 199; 25; 232; 146; 209; 36; 6; 153; 214; 133; 53; 14; 244; 112; 160; 106; 16;
    22; 193; 164; 25; 8; 108; 55; 30; 76; 119; 72; 39; 181; 188; 176; 52; 179; 12; 28; 57; 74; 170; 216; 78;
    79; 202; 156; 91; 243; 111; 46; 104; 238; 130; 143; 116; 111; 99; 165; 120; 20; 120; 200; 132; 8; 2; 199; 140;
    250; 255; 190; 144; 235; 108; 80; 164; 247; 163; 249; 190; 242; 120; 113; 198]);
  (288, [0; 1; 2; 3; 4; 5; 6; 7; 8; 9; 10; 11; 12; 13; 14; 15; 7; 4; 13; 1; 10; 6; 15; 3;
    12; 0; 9; 5; 2; 14; 11; 8; 3; 10; 14; 4; 9; 15; 8; 1; 2; 7; 0; 6; 13; 11; 5; 12;
    1; 9; 11; 10; 0; 8; 12; 4; 13; 3; 7; 15; 14; 5; 6; 2; 4; 0; 5; 9; 7; 12; 2; 10;
    14; 1; 3; 8; 11; 6; 15; 13]);
  (368, [5; 14; 7; 0; 9; 2; 11; 4; 13; 6; 15; 8; 1; 10; 3; 12; 6; 11; 3; 7; 0; 13; 5; 10;
    14; 15; 8; 12; 4; 9; 1; 2; 15; 5; 1; 3; 7; 14; 6; 9; 11; 8; 12; 2; 10; 0; 4; 13;
    8; 6; 4; 1; 3; 11; 15; 0; 5; 12; 2; 13; 9; 7; 10; 14; 12; 15; 10; 4; 1; 5; 8; 7;
    6; 2; 13; 14; 0; 3; 9; 11]);
  (448, [11; 14; 15; 12; 5; 8; 7; 9; 11; 13; 14; 15; 6; 7; 9; 8; 7; 6; 8; 13; 11; 9; 7; 15;
    7; 12; 15; 9; 11; 7; 13; 12; 11; 13; 6; 7; 14; 9; 13; 15; 14; 8; 13; 6; 5; 12; 7; 5;
    11; 12; 14; 15; 14; 15; 9; 8; 9; 14; 5; 6; 8; 6; 5; 12; 9; 15; 5; 11; 6; 8; 13; 12;
    5; 12; 13; 14; 11; 8; 5; 6]);
  (528, [8; 9; 9; 11; 13; 15; 15; 5; 7; 7; 8; 11; 14; 14; 12; 6; 9; 13; 15; 7; 12; 8; 9; 11;
    7; 7; 12; 7; 6; 15; 13; 11; 9; 7; 15; 11; 8; 6; 6; 14; 12; 13; 5; 14; 13; 13; 7; 5;
    15; 5; 8; 11; 14; 14; 6; 14; 6; 9; 12; 9; 12; 5; 15; 8; 8; 5; 12; 9; 12; 5; 14; 6;
    8; 13; 6; 5; 15; 13; 11; 11]);
  (608, [0; 0; 0; 0; 153; 121; 130; 90; 161; 235; 217; 110; 220; 188; 27; 143; 78; 253; 83; 169]);
  (628, [230; 139; 162; 80; 36; 209; 77; 92; 243; 62; 112; 109; 233; 118; 109; 122; 0; 0; 0; 0]);
  (648, [8; 201; 188; 243; 103; 230; 9; 106; 59; 167; 202; 132; 133; 174; 103; 187; 43; 248; 148; 254; 114; 243; 110; 60;
    241; 54; 29; 95; 58; 245; 79; 165; 209; 130; 230; 173; 127; 82; 14; 81; 31; 108; 62; 43; 140; 104; 5; 155;
    107; 189; 65; 251; 171; 217; 131; 31; 121; 33; 126; 19; 25; 205; 224; 91]);
  (712, [34; 174; 40; 215; 152; 47; 138; 66; 205; 101; 239; 35; 145; 68; 55; 113; 47; 59; 77; 236; 207; 251; 192; 181;
    188; 219; 137; 129; 165; 219; 181; 233; 56; 181; 72; 243; 91; 194; 86; 57; 25; 208; 5; 182; 241; 17; 241; 89;
    155; 79; 25; 175; 164; 130; 63; 146; 24; 129; 109; 218; 213; 94; 28; 171; 66; 2; 3; 163; 152; 170; 7; 216;
    190; 111; 112; 69; 1; 91; 131; 18; 140; 178; 228; 78; 190; 133; 49; 36; 226; 180; 255; 213; 195; 125; 12; 85;
    111; 137; 123; 242; 116; 93; 190; 114; 177; 150; 22; 59; 254; 177; 222; 128; 53; 18; 199; 37; 167; 6; 220; 155;
    148; 38; 105; 207; 116; 241; 155; 193; 210; 74; 241; 158; 193; 105; 155; 228; 227; 37; 79; 56; 134; 71; 190; 239;
    181; 213; 140; 139; 198; 157; 193; 15; 101; 156; 172; 119; 204; 161; 12; 36; 117; 2; 43; 89; 111; 44; 233; 45;
    131; 228; 166; 110; 170; 132; 116; 74; 212; 251; 65; 189; 220; 169; 176; 92; 181; 83; 17; 131; 218; 136; 249; 118;
    171; 223; 102; 238; 82; 81; 62; 152; 16; 50; 180; 45; 109; 198; 49; 168; 63; 33; 251; 152; 200; 39; 3; 176;
    228; 14; 239; 190; 199; 127; 89; 191; 194; 143; 168; 61; 243; 11; 224; 198; 37; 167; 10; 147; 71; 145; 167; 213;
    111; 130; 3; 224; 81; 99; 202; 6; 112; 110; 14; 10; 103; 41; 41; 20; 252; 47; 210; 70; 133; 10; 183; 39;
    38; 201; 38; 92; 56; 33; 27; 46; 237; 42; 196; 90; 252; 109; 44; 77; 223; 179; 149; 157; 19; 13; 56; 83;
    222; 99; 175; 139; 84; 115; 10; 101; 168; 178; 119; 60; 187; 10; 106; 118; 230; 174; 237; 71; 46; 201; 194; 129;
    59; 53; 130; 20; 133; 44; 114; 146; 100; 3; 241; 76; 161; 232; 191; 162; 1; 48; 66; 188; 75; 102; 26; 168;
    145; 151; 248; 208; 112; 139; 75; 194; 48; 190; 84; 6; 163; 81; 108; 199; 24; 82; 239; 214; 25; 232; 146; 209;
    16; 169; 101; 85; 36; 6; 153; 214; 42; 32; 113; 87; 133; 53; 14; 244; 184; 209; 187; 50; 112; 160; 106; 16;
    200; 208; 210; 184; 22; 193; 164; 25; 83; 171; 65; 81; 8; 108; 55; 30; 153; 235; 142; 223; 76; 119; 72; 39;
    168; 72; 155; 225; 181; 188; 176; 52; 99; 90; 201; 197; 179; 12; 28; 57; 203; 138; 65; 227; 74; 170; 216; 78;
    115; 227; 99; 119; 79; 202; 156; 91; 163; 184; 178; 214; 243; 111; 46; 104; 252; 178; 239; 93; 238; 130; 143; 116;
    96; 47; 23; 67; 111; 99; 165; 120; 114; 171; 240; 161; 20; 120; 200; 132; 236; 57; 100; 26; 8; 2; 199; 140;
    40; 30; 99; 35; 250; 255; 190; 144; 233; 189; 130; 222; 235; 108; 80; 164; 21; 121; 198; 178; 247; 163; 249; 190;
    43; 83; 114; 227; 242; 120; 113; 198; 156; 97; 38; 234; 206; 62; 39; 202; 7; 194; 192; 33; 199; 184; 134; 209;
    30; 235; 224; 205; 214; 125; 218; 234; 120; 209; 110; 238; 127; 79; 125; 245; 186; 111; 23; 114; 170; 103; 240; 6;
    166; 152; 200; 162; 197; 125; 99; 10; 174; 13; 249; 190; 4; 152; 63; 17; 27; 71; 28; 19; 53; 11; 113; 27;
    132; 125; 4; 35; 245; 119; 219; 40; 147; 36; 199; 64; 123; 171; 202; 50; 188; 190; 201; 21; 10; 190; 158; 60;
    76; 13; 16; 156; 196; 103; 29; 67; 182; 66; 62; 203; 190; 212; 197; 76; 42; 126; 101; 252; 156; 41; 127; 89;
    236; 250; 214; 58; 171; 111; 203; 95; 23; 88; 71; 74; 140; 25; 68; 108])
].

(** initial memory size in pages (standard.wat line 3947) *)
Definition std_pages : Z := 10.
