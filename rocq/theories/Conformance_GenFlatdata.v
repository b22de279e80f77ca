(** GENERATED by tools/gen_schema_vectors.py: the repository's own generator test cases (test_cases/) and expected
    normalised schemas (flatdata-generator/tests/generators/flatdata_expectations) evaluated on the model: each case as
    [test_against_expectations] and as [test_normalization_is_fixed_point] (test_flatdata_generator.py:26-32).  Tests of the
    model's faithfulness, not proofs of properties. *)
From Coq Require Import List ZArith Bool String.
From Verif Require Import PyBase GenTree GenBuild GenFlatdata.
Import ListNotations.
Local Open Scope string_scope.

Definition renders (s : pschema) (expected : string) : bool :=
  match build_ast (fun l => l) s with
  | Ok root => match render_lines root with Ok ls => String.eqb (text ls) expected | Err _ => false end
  | Err _ => false
  end.

Definition cases : list (pschema * pschema * string) :=
 [(* archives/comments.flatdata *)
  ([PNamespace "n" [] [] [] [PArchive "Foo" [] [PResource "bar" [] TRaw]; PArchive "Bar" [] [PResource "foo" [] TRaw]]],
   [PNamespace "n" [] [] [] [PArchive "Foo" [] [PResource "bar" [] TRaw]]; PNamespace "n" [] [] [] [PArchive "Bar" [] [PResource "foo" [] TRaw]]],
"namespace n {
archive Foo
{
    bar : raw_data;
}
}

namespace n {
archive Bar
{
    foo : raw_data;
}
}

");
  (* archives/empty.flatdata *)
  ([PNamespace "n" [] [] [] [PArchive "A" [] []]],
   [PNamespace "n" [] [] [] [PArchive "A" [] []]],
"namespace n {
archive A
{
}
}

");
  (* archives/multivector.flatdata *)
  ([PNamespace "n" [] [PStruct "S" [PField "x" [] "u64" None]; PStruct "T" [PField "x" [] "u64" None]] [] [PArchive "A" [] [PResource "data" [] (TMulti 8%N ["S"; "T"]); PResource "optional_data" [ROptional] (TMulti 16%N ["S"; "T"]); PResource "data_u64_index" [] (TMulti 64%N ["S"; "T"])]]],
   [PNamespace "n" [] [PStruct "S" [PField "x" [] "u64" (Some 64%N)]] [] []; PNamespace "n" [] [PStruct "T" [PField "x" [] "u64" (Some 64%N)]] [] []; PNamespace "n" [] [] [] [PArchive "A" [] [PResource "data" [] (TMulti 8%N [".n.S"; ".n.T"]); PResource "optional_data" [ROptional] (TMulti 16%N [".n.S"; ".n.T"]); PResource "data_u64_index" [] (TMulti 64%N [".n.S"; ".n.T"])]]],
"namespace n {
struct S
{
    x : u64 : 64;
}
}

namespace n {
struct T
{
    x : u64 : 64;
}
}

namespace n {
archive A
{
    data : multivector< 8, .n.S, .n.T >;
    @optional
    optional_data : multivector< 16, .n.S, .n.T >;
    data_u64_index : multivector< 64, .n.S, .n.T >;
}
}

");
  (* archives/namespaces.flatdata *)
  ([PNamespace "n" [] [PStruct "S" [PField "x" [] "u64" None]] [] [PArchive "X" [] [PResource "payload" [] TRaw]]; PNamespace "m" [] [PStruct "S" [PField "x" [] "u64" None]] [] [PArchive "X" [] [PResource "payload" [] TRaw]]; PNamespace "a" [] [] [] [PArchive "A" [] [PResource "single" [] (TObject ".n.S"); PResource "list" [] (TVector ".m.S"); PResource "multi" [] (TMulti 32%N [".n.S"]); PResource "inner" [] (TArchive ".n.X")]]],
   [PNamespace "n" [] [PStruct "S" [PField "x" [] "u64" (Some 64%N)]] [] []; PNamespace "n" [] [] [] [PArchive "X" [] [PResource "payload" [] TRaw]]; PNamespace "m" [] [PStruct "S" [PField "x" [] "u64" (Some 64%N)]] [] []; PNamespace "m" [] [] [] [PArchive "X" [] [PResource "payload" [] TRaw]]; PNamespace "a" [] [] [] [PArchive "A" [] [PResource "single" [] (TObject ".n.S"); PResource "list" [] (TVector ".m.S"); PResource "multi" [] (TMulti 32%N [".n.S"]); PResource "inner" [] (TArchive ".n.X")]]],
"namespace n {
struct S
{
    x : u64 : 64;
}
}

namespace n {
archive X
{
    payload : raw_data;
}
}

namespace m {
struct S
{
    x : u64 : 64;
}
}

namespace m {
archive X
{
    payload : raw_data;
}
}

namespace a {
archive A
{
    single : .n.S;
    list : vector< .m.S >;
    multi : multivector< 32, .n.S >;
    inner : archive .n.X;
}
}

");
  (* archives/ranges.flatdata *)
  ([PNamespace "n" [] [PStruct "S" [PField "x" [] "u64" None; PField "first_y" [FRange "y_range"] "u32" (Some 14%N)]] [] [PArchive "A" [] [PResource "data" [] (TVector "S")]]],
   [PNamespace "n" [] [PStruct "S" [PField "x" [] "u64" (Some 64%N); PField "first_y" [FRange "y_range"] "u32" (Some 14%N)]] [] []; PNamespace "n" [] [] [] [PArchive "A" [] [PResource "data" [] (TVector ".n.S")]]],
"namespace n {
struct S
{
    x : u64 : 64;
    @range( y_range )
    first_y : u32 : 14;
}
}

namespace n {
archive A
{
    data : vector< .n.S >;
}
}

");
  (* archives/raw_data.flatdata *)
  ([PNamespace "n" [] [] [] [PArchive "A" [] [PResource "data" [] TRaw; PResource "optional_data" [ROptional] TRaw]]],
   [PNamespace "n" [] [] [] [PArchive "A" [] [PResource "data" [] TRaw; PResource "optional_data" [ROptional] TRaw]]],
"namespace n {
archive A
{
    data : raw_data;
    @optional
    optional_data : raw_data;
}
}

");
  (* archives/references.flatdata *)
  ([PNamespace "n" [] [PStruct "S" [PField "x" [] "u32" None]; PStruct "R" [PField "ref" [] "u32" (Some 8%N); PField "ref2" [] "u32" (Some 4%N)]] [] [PArchive "A" [("all_lists", ["list1"; "list2"; "multilist1"])] [PResource "list1" [ROptional] (TVector "S"); PResource "list2" [] (TVector "S"); PResource "multilist1" [ROptional] (TMulti 32%N ["S"]); PResource "multilist2" [] (TMulti 32%N ["S"]); PResource "raw1" [ROptional] TRaw; PResource "raw2" [] TRaw; PResource "refs" [RExplicit "R" "ref" "list1"; RExplicit "R" "ref2" "list1"; RExplicit "R" "ref2" "list2"; RExplicit "R" "ref2" "multilist1"; RExplicit "R" "ref2" "multilist2"; RExplicit "R" "ref2" "raw1"; RExplicit "R" "ref2" "raw2"] (TVector "R"); PResource "multirefs" [RExplicit "R" "ref" "list1"] (TMulti 32%N ["R"])]]],
   [PNamespace "n" [] [PStruct "S" [PField "x" [] "u32" (Some 32%N)]] [] []; PNamespace "n" [] [PStruct "R" [PField "ref" [] "u32" (Some 8%N); PField "ref2" [] "u32" (Some 4%N)]] [] []; PNamespace "n" [] [] [] [PArchive "A" [("all_lists", [".n.A.list1"; ".n.A.list2"; ".n.A.multilist1"])] [PResource "list1" [ROptional] (TVector ".n.S"); PResource "list2" [] (TVector ".n.S"); PResource "multilist1" [ROptional] (TMulti 32%N [".n.S"]); PResource "multilist2" [] (TMulti 32%N [".n.S"]); PResource "raw1" [ROptional] TRaw; PResource "raw2" [] TRaw; PResource "refs" [RExplicit ".n.R" "ref" ".n.A.list1"; RExplicit ".n.R" "ref2" ".n.A.list1"; RExplicit ".n.R" "ref2" ".n.A.list2"; RExplicit ".n.R" "ref2" ".n.A.multilist1"; RExplicit ".n.R" "ref2" ".n.A.multilist2"; RExplicit ".n.R" "ref2" ".n.A.raw1"; RExplicit ".n.R" "ref2" ".n.A.raw2"] (TVector ".n.R"); PResource "multirefs" [RExplicit ".n.R" "ref" ".n.A.list1"] (TMulti 32%N [".n.R"])]]],
"namespace n {
struct S
{
    x : u32 : 32;
}
}

namespace n {
struct R
{
    ref : u32 : 8;
    ref2 : u32 : 4;
}
}

namespace n {
@bound_implicitly( all_lists : .n.A.list1, .n.A.list2, .n.A.multilist1 )
archive A
{
    @optional
    list1 : vector< .n.S >;
    list2 : vector< .n.S >;
    @optional
    multilist1 : multivector< 32, .n.S >;
    multilist2 : multivector< 32, .n.S >;
    @optional
    raw1 : raw_data;
    raw2 : raw_data;
    @explicit_reference( .n.R.ref, .n.A.list1 )
    @explicit_reference( .n.R.ref2, .n.A.list1 )
    @explicit_reference( .n.R.ref2, .n.A.list2 )
    @explicit_reference( .n.R.ref2, .n.A.multilist1 )
    @explicit_reference( .n.R.ref2, .n.A.multilist2 )
    @explicit_reference( .n.R.ref2, .n.A.raw1 )
    @explicit_reference( .n.R.ref2, .n.A.raw2 )
    refs : vector< .n.R >;
    @explicit_reference( .n.R.ref, .n.A.list1 )
    multirefs : multivector< 32, .n.R >;
}
}

");
  (* archives/struct.flatdata *)
  ([PNamespace "n" [] [PStruct "S" [PField "x" [] "u64" None]] [] [PArchive "A" [] [PResource "data" [] (TObject "S"); PResource "optional_data" [ROptional] (TObject "S")]]],
   [PNamespace "n" [] [PStruct "S" [PField "x" [] "u64" (Some 64%N)]] [] []; PNamespace "n" [] [] [] [PArchive "A" [] [PResource "data" [] (TObject ".n.S"); PResource "optional_data" [ROptional] (TObject ".n.S")]]],
"namespace n {
struct S
{
    x : u64 : 64;
}
}

namespace n {
archive A
{
    data : .n.S;
    @optional
    optional_data : .n.S;
}
}

");
  (* archives/subarchive.flatdata *)
  ([PNamespace "n" [] [] [] [PArchive "X" [] [PResource "payload" [] TRaw]; PArchive "A" [] [PResource "data" [] (TArchive "X"); PResource "optional_data" [ROptional] (TArchive "X")]]],
   [PNamespace "n" [] [] [] [PArchive "X" [] [PResource "payload" [] TRaw]]; PNamespace "n" [] [] [] [PArchive "A" [] [PResource "data" [] (TArchive ".n.X"); PResource "optional_data" [ROptional] (TArchive ".n.X")]]],
"namespace n {
archive X
{
    payload : raw_data;
}
}

namespace n {
archive A
{
    data : archive .n.X;
    @optional
    optional_data : archive .n.X;
}
}

");
  (* archives/vector.flatdata *)
  ([PNamespace "n" [] [PStruct "S" [PField "x" [] "u64" None]] [] [PArchive "A" [] [PResource "data" [] (TVector "S"); PResource "optional_data" [ROptional] (TVector "S")]]],
   [PNamespace "n" [] [PStruct "S" [PField "x" [] "u64" (Some 64%N)]] [] []; PNamespace "n" [] [] [] [PArchive "A" [] [PResource "data" [] (TVector ".n.S"); PResource "optional_data" [ROptional] (TVector ".n.S")]]],
"namespace n {
struct S
{
    x : u64 : 64;
}
}

namespace n {
archive A
{
    data : vector< .n.S >;
    @optional
    optional_data : vector< .n.S >;
}
}

");
  (* constants/comments.flatdata *)
  ([PNamespace "n" [PConst "FOO" "u32" "0"; PConst "BAR" "u64" "0"] [] [] []],
   [PNamespace "n" [PConst "FOO" "u32" "0"] [] [] []; PNamespace "n" [PConst "BAR" "u64" "0"] [] [] []],
"namespace n {
const u32 FOO = 0;
}

namespace n {
const u64 BAR = 0;
}

");
  (* constants/invalid_value.flatdata *)
  ([PNamespace "n" [PConst "INVALID_ZERO" "i8" "0"; PConst "INVALID_MIN_INT" "i8" "-128"; PConst "INVALID_MAX_INT" "i8" "127"] [PStruct "Bar" [PField "invalid_zero" [FOptional "INVALID_ZERO"] "i8" None; PField "invalid_min_int" [FOptional "INVALID_MIN_INT"] "i8" None; PField "invalid_max_int" [FOptional "INVALID_MAX_INT"] "i8" None]] [] []],
   [PNamespace "n" [PConst "INVALID_ZERO" "i8" "0"] [] [] []; PNamespace "n" [PConst "INVALID_MIN_INT" "i8" "-128"] [] [] []; PNamespace "n" [PConst "INVALID_MAX_INT" "i8" "127"] [] [] []; PNamespace "n" [] [PStruct "Bar" [PField "invalid_zero" [FOptional ".n.INVALID_ZERO"] "i8" (Some 8%N); PField "invalid_min_int" [FOptional ".n.INVALID_MIN_INT"] "i8" (Some 8%N); PField "invalid_max_int" [FOptional ".n.INVALID_MAX_INT"] "i8" (Some 8%N)]] [] []],
"namespace n {
const i8 INVALID_ZERO = 0;
}

namespace n {
const i8 INVALID_MIN_INT = -128;
}

namespace n {
const i8 INVALID_MAX_INT = 127;
}

namespace n {
struct Bar
{
    @optional( .n.INVALID_ZERO )
    invalid_zero : i8 : 8;
    @optional( .n.INVALID_MIN_INT )
    invalid_min_int : i8 : 8;
    @optional( .n.INVALID_MAX_INT )
    invalid_max_int : i8 : 8;
}
}

");
  (* constants/namespaces.flatdata *)
  ([PNamespace "n" [PConst "FOO" "i8" "0"; PConst "FOO2" "i8" "10"] [] [] []; PNamespace "m" [PConst "FOO" "i8" "1"] [PStruct "Bar" [PField "foo1" [FConst "FOO"] "i8" None; PField "foo2" [FConst ".n.FOO"] "i8" None; PField "foo3" [FConst ".m.FOO"] "i8" None; PField "bar1" [FOptional "FOO"] "i8" None; PField "bar2" [FOptional ".n.FOO"] "i8" None; PField "bar3" [FOptional ".m.FOO"] "i8" None]] [] []],
   [PNamespace "n" [PConst "FOO" "i8" "0"] [] [] []; PNamespace "n" [PConst "FOO2" "i8" "10"] [] [] []; PNamespace "m" [PConst "FOO" "i8" "1"] [] [] []; PNamespace "m" [] [PStruct "Bar" [PField "foo1" [FConst ".m.FOO"] "i8" (Some 8%N); PField "foo2" [FConst ".n.FOO"] "i8" (Some 8%N); PField "foo3" [FConst ".m.FOO"] "i8" (Some 8%N); PField "bar1" [FOptional ".m.FOO"] "i8" (Some 8%N); PField "bar2" [FOptional ".n.FOO"] "i8" (Some 8%N); PField "bar3" [FOptional ".m.FOO"] "i8" (Some 8%N)]] [] []],
"namespace n {
const i8 FOO = 0;
}

namespace n {
const i8 FOO2 = 10;
}

namespace m {
const i8 FOO = 1;
}

namespace m {
struct Bar
{
    @const( .m.FOO )
    foo1 : i8 : 8;
    @const( .n.FOO )
    foo2 : i8 : 8;
    @const( .m.FOO )
    foo3 : i8 : 8;
    @optional( .m.FOO )
    bar1 : i8 : 8;
    @optional( .n.FOO )
    bar2 : i8 : 8;
    @optional( .m.FOO )
    bar3 : i8 : 8;
}
}

");
  (* constants/values.flatdata *)
  ([PNamespace "n" [PConst "FOO_I8_NEG" "i8" "-128"; PConst "FOO_I8_POS" "i8" "127"; PConst "FOO_I8_ZERO" "i8" "0"; PConst "FOO_I8_NEG_HEX" "i8" "-0x80"; PConst "FOO_I8_POS_HEX" "i8" "0x7f"; PConst "FOO_I8_ZERO_HEX" "i8" "0x0"; PConst "FOO_U8_POS" "u8" "255"; PConst "FOO_U8_ZERO" "u8" "0"; PConst "FOO_U8_POS_HEX" "u8" "0xff"; PConst "FOO_U8_ZERO_HEX" "u8" "0x0"; PConst "FOO_I16_NEG" "i16" "-32768"; PConst "FOO_I16_POS" "i16" "32767"; PConst "FOO_I16_ZERO" "i16" "0"; PConst "FOO_I16_NEG_HEX" "i16" "-0x8000"; PConst "FOO_I16_POS_HEX" "i16" "0x7fff"; PConst "FOO_I16_ZERO_HEX" "i16" "0x0"; PConst "FOO_U16_POS" "u16" "65535"; PConst "FOO_U16_ZERO" "u16" "0"; PConst "FOO_U16_POS_HEX" "u16" "0xffff"; PConst "FOO_U16_ZERO_HEX" "u16" "0x0"; PConst "FOO_I32_NEG" "i32" "-2147483648"; PConst "FOO_I32_POS" "i32" "2147483647"; PConst "FOO_I32_ZERO" "i32" "0"; PConst "FOO_I32_NEG_HEX" "i32" "-0x80000000"; PConst "FOO_I32_POS_HEX" "i32" "0x7fffffff"; PConst "FOO_I32_ZERO_HEX" "i32" "0x0"; PConst "FOO_U32_POS" "u32" "4294967295"; PConst "FOO_U32_ZERO" "u32" "0"; PConst "FOO_U32_POS_HEX" "u32" "0xffffffff"; PConst "FOO_U32_ZERO_HEX" "u32" "0x0"; PConst "FOO_I64_NEG" "i64" "-9223372036854775808"; PConst "FOO_I64_POS" "i64" "9223372036854775807"; PConst "FOO_I64_ZERO" "i64" "0"; PConst "FOO_I64_NEG_HEX" "i64" "-0x8000000000000000"; PConst "FOO_I64_POS_HEX" "i64" "0x7fffffffffffffff"; PConst "FOO_I64_ZERO_HEX" "i64" "0x0"; PConst "FOO_U64_POS" "u64" "18446744073709551615"; PConst "FOO_U64_ZERO" "u64" "0"; PConst "FOO_U64_POS_HEX" "u64" "0xffffffffffffffff"; PConst "FOO_U64_ZERO_HEX" "u64" "0x0"] [] [] []],
   [PNamespace "n" [PConst "FOO_I8_NEG" "i8" "-128"] [] [] []; PNamespace "n" [PConst "FOO_I8_POS" "i8" "127"] [] [] []; PNamespace "n" [PConst "FOO_I8_ZERO" "i8" "0"] [] [] []; PNamespace "n" [PConst "FOO_I8_NEG_HEX" "i8" "-128"] [] [] []; PNamespace "n" [PConst "FOO_I8_POS_HEX" "i8" "127"] [] [] []; PNamespace "n" [PConst "FOO_I8_ZERO_HEX" "i8" "0"] [] [] []; PNamespace "n" [PConst "FOO_U8_POS" "u8" "255"] [] [] []; PNamespace "n" [PConst "FOO_U8_ZERO" "u8" "0"] [] [] []; PNamespace "n" [PConst "FOO_U8_POS_HEX" "u8" "255"] [] [] []; PNamespace "n" [PConst "FOO_U8_ZERO_HEX" "u8" "0"] [] [] []; PNamespace "n" [PConst "FOO_I16_NEG" "i16" "-32768"] [] [] []; PNamespace "n" [PConst "FOO_I16_POS" "i16" "32767"] [] [] []; PNamespace "n" [PConst "FOO_I16_ZERO" "i16" "0"] [] [] []; PNamespace "n" [PConst "FOO_I16_NEG_HEX" "i16" "-32768"] [] [] []; PNamespace "n" [PConst "FOO_I16_POS_HEX" "i16" "32767"] [] [] []; PNamespace "n" [PConst "FOO_I16_ZERO_HEX" "i16" "0"] [] [] []; PNamespace "n" [PConst "FOO_U16_POS" "u16" "65535"] [] [] []; PNamespace "n" [PConst "FOO_U16_ZERO" "u16" "0"] [] [] []; PNamespace "n" [PConst "FOO_U16_POS_HEX" "u16" "65535"] [] [] []; PNamespace "n" [PConst "FOO_U16_ZERO_HEX" "u16" "0"] [] [] []; PNamespace "n" [PConst "FOO_I32_NEG" "i32" "-2147483648"] [] [] []; PNamespace "n" [PConst "FOO_I32_POS" "i32" "2147483647"] [] [] []; PNamespace "n" [PConst "FOO_I32_ZERO" "i32" "0"] [] [] []; PNamespace "n" [PConst "FOO_I32_NEG_HEX" "i32" "-2147483648"] [] [] []; PNamespace "n" [PConst "FOO_I32_POS_HEX" "i32" "2147483647"] [] [] []; PNamespace "n" [PConst "FOO_I32_ZERO_HEX" "i32" "0"] [] [] []; PNamespace "n" [PConst "FOO_U32_POS" "u32" "4294967295"] [] [] []; PNamespace "n" [PConst "FOO_U32_ZERO" "u32" "0"] [] [] []; PNamespace "n" [PConst "FOO_U32_POS_HEX" "u32" "4294967295"] [] [] []; PNamespace "n" [PConst "FOO_U32_ZERO_HEX" "u32" "0"] [] [] []; PNamespace "n" [PConst "FOO_I64_NEG" "i64" "-9223372036854775808"] [] [] []; PNamespace "n" [PConst "FOO_I64_POS" "i64" "9223372036854775807"] [] [] []; PNamespace "n" [PConst "FOO_I64_ZERO" "i64" "0"] [] [] []; PNamespace "n" [PConst "FOO_I64_NEG_HEX" "i64" "-9223372036854775808"] [] [] []; PNamespace "n" [PConst "FOO_I64_POS_HEX" "i64" "9223372036854775807"] [] [] []; PNamespace "n" [PConst "FOO_I64_ZERO_HEX" "i64" "0"] [] [] []; PNamespace "n" [PConst "FOO_U64_POS" "u64" "18446744073709551615"] [] [] []; PNamespace "n" [PConst "FOO_U64_ZERO" "u64" "0"] [] [] []; PNamespace "n" [PConst "FOO_U64_POS_HEX" "u64" "18446744073709551615"] [] [] []; PNamespace "n" [PConst "FOO_U64_ZERO_HEX" "u64" "0"] [] [] []],
"namespace n {
const i8 FOO_I8_NEG = -128;
}

namespace n {
const i8 FOO_I8_POS = 127;
}

namespace n {
const i8 FOO_I8_ZERO = 0;
}

namespace n {
const i8 FOO_I8_NEG_HEX = -128;
}

namespace n {
const i8 FOO_I8_POS_HEX = 127;
}

namespace n {
const i8 FOO_I8_ZERO_HEX = 0;
}

namespace n {
const u8 FOO_U8_POS = 255;
}

namespace n {
const u8 FOO_U8_ZERO = 0;
}

namespace n {
const u8 FOO_U8_POS_HEX = 255;
}

namespace n {
const u8 FOO_U8_ZERO_HEX = 0;
}

namespace n {
const i16 FOO_I16_NEG = -32768;
}

namespace n {
const i16 FOO_I16_POS = 32767;
}

namespace n {
const i16 FOO_I16_ZERO = 0;
}

namespace n {
const i16 FOO_I16_NEG_HEX = -32768;
}

namespace n {
const i16 FOO_I16_POS_HEX = 32767;
}

namespace n {
const i16 FOO_I16_ZERO_HEX = 0;
}

namespace n {
const u16 FOO_U16_POS = 65535;
}

namespace n {
const u16 FOO_U16_ZERO = 0;
}

namespace n {
const u16 FOO_U16_POS_HEX = 65535;
}

namespace n {
const u16 FOO_U16_ZERO_HEX = 0;
}

namespace n {
const i32 FOO_I32_NEG = -2147483648;
}

namespace n {
const i32 FOO_I32_POS = 2147483647;
}

namespace n {
const i32 FOO_I32_ZERO = 0;
}

namespace n {
const i32 FOO_I32_NEG_HEX = -2147483648;
}

namespace n {
const i32 FOO_I32_POS_HEX = 2147483647;
}

namespace n {
const i32 FOO_I32_ZERO_HEX = 0;
}

namespace n {
const u32 FOO_U32_POS = 4294967295;
}

namespace n {
const u32 FOO_U32_ZERO = 0;
}

namespace n {
const u32 FOO_U32_POS_HEX = 4294967295;
}

namespace n {
const u32 FOO_U32_ZERO_HEX = 0;
}

namespace n {
const i64 FOO_I64_NEG = -9223372036854775808;
}

namespace n {
const i64 FOO_I64_POS = 9223372036854775807;
}

namespace n {
const i64 FOO_I64_ZERO = 0;
}

namespace n {
const i64 FOO_I64_NEG_HEX = -9223372036854775808;
}

namespace n {
const i64 FOO_I64_POS_HEX = 9223372036854775807;
}

namespace n {
const i64 FOO_I64_ZERO_HEX = 0;
}

namespace n {
const u64 FOO_U64_POS = 18446744073709551615;
}

namespace n {
const u64 FOO_U64_ZERO = 0;
}

namespace n {
const u64 FOO_U64_POS_HEX = 18446744073709551615;
}

namespace n {
const u64 FOO_U64_ZERO_HEX = 0;
}

");
  (* enums/comments.flatdata *)
  ([PNamespace "n" [] [] [PEnum "Foo" "u64" (Some 1%N) [("A", Some "0"); ("B", Some "1")]; PEnum "Bar" "u64" (Some 1%N) [("A", Some "0"); ("B", Some "1")]] []],
   [PNamespace "n" [] [] [PEnum "Foo" "u64" (Some 1%N) [("A", Some "0"); ("B", Some "1")]] []; PNamespace "n" [] [] [PEnum "Bar" "u64" (Some 1%N) [("A", Some "0"); ("B", Some "1")]] []],
"namespace n {
enum Foo : u64 : 1
{
    A = 0,
    B = 1,
}
}

namespace n {
enum Bar : u64 : 1
{
    A = 0,
    B = 1,
}
}

");
  (* enums/default_width.flatdata *)
  ([PNamespace "n" [] [PStruct "StructEnumI8" [PField "f" [] "EnumI8" None]; PStruct "StructEnumU8" [PField "f" [] "EnumU8" None]; PStruct "StructEnumI16" [PField "f" [] "EnumI16" None]; PStruct "StructEnumU16" [PField "f" [] "EnumU16" None]; PStruct "StructEnumI32" [PField "f" [] "EnumI32" None]; PStruct "StructEnumU32" [PField "f" [] "EnumU32" None]; PStruct "StructEnumI64" [PField "f" [] "EnumI64" None]; PStruct "StructEnumU64" [PField "f" [] "EnumU64" None]] [PEnum "EnumI8" "i8" (Some 1%N) [("VALUE", Some "0")]; PEnum "EnumU8" "u8" (Some 1%N) [("VALUE", Some "0")]; PEnum "EnumI16" "i16" (Some 1%N) [("VALUE", Some "0")]; PEnum "EnumU16" "u16" (Some 1%N) [("VALUE", Some "0")]; PEnum "EnumI32" "i32" (Some 1%N) [("VALUE", Some "0")]; PEnum "EnumU32" "u32" (Some 1%N) [("VALUE", Some "0")]; PEnum "EnumI64" "i64" (Some 1%N) [("VALUE", Some "0")]; PEnum "EnumU64" "u64" (Some 1%N) [("VALUE", Some "0")]] []],
   [PNamespace "n" [] [] [PEnum "EnumI8" "i8" (Some 1%N) [("VALUE", Some "0")]] []; PNamespace "n" [] [PStruct "StructEnumI8" [PField "f" [] ".n.EnumI8" (Some 1%N)]] [] []; PNamespace "n" [] [] [PEnum "EnumU8" "u8" (Some 1%N) [("VALUE", Some "0")]] []; PNamespace "n" [] [PStruct "StructEnumU8" [PField "f" [] ".n.EnumU8" (Some 1%N)]] [] []; PNamespace "n" [] [] [PEnum "EnumI16" "i16" (Some 1%N) [("VALUE", Some "0")]] []; PNamespace "n" [] [PStruct "StructEnumI16" [PField "f" [] ".n.EnumI16" (Some 1%N)]] [] []; PNamespace "n" [] [] [PEnum "EnumU16" "u16" (Some 1%N) [("VALUE", Some "0")]] []; PNamespace "n" [] [PStruct "StructEnumU16" [PField "f" [] ".n.EnumU16" (Some 1%N)]] [] []; PNamespace "n" [] [] [PEnum "EnumI32" "i32" (Some 1%N) [("VALUE", Some "0")]] []; PNamespace "n" [] [PStruct "StructEnumI32" [PField "f" [] ".n.EnumI32" (Some 1%N)]] [] []; PNamespace "n" [] [] [PEnum "EnumU32" "u32" (Some 1%N) [("VALUE", Some "0")]] []; PNamespace "n" [] [PStruct "StructEnumU32" [PField "f" [] ".n.EnumU32" (Some 1%N)]] [] []; PNamespace "n" [] [] [PEnum "EnumI64" "i64" (Some 1%N) [("VALUE", Some "0")]] []; PNamespace "n" [] [PStruct "StructEnumI64" [PField "f" [] ".n.EnumI64" (Some 1%N)]] [] []; PNamespace "n" [] [] [PEnum "EnumU64" "u64" (Some 1%N) [("VALUE", Some "0")]] []; PNamespace "n" [] [PStruct "StructEnumU64" [PField "f" [] ".n.EnumU64" (Some 1%N)]] [] []],
"namespace n {
enum EnumI8 : i8 : 1
{
    VALUE = 0,
}
}

namespace n {
struct StructEnumI8
{
    f : .n.EnumI8 : 1;
}
}

namespace n {
enum EnumU8 : u8 : 1
{
    VALUE = 0,
}
}

namespace n {
struct StructEnumU8
{
    f : .n.EnumU8 : 1;
}
}

namespace n {
enum EnumI16 : i16 : 1
{
    VALUE = 0,
}
}

namespace n {
struct StructEnumI16
{
    f : .n.EnumI16 : 1;
}
}

namespace n {
enum EnumU16 : u16 : 1
{
    VALUE = 0,
}
}

namespace n {
struct StructEnumU16
{
    f : .n.EnumU16 : 1;
}
}

namespace n {
enum EnumI32 : i32 : 1
{
    VALUE = 0,
}
}

namespace n {
struct StructEnumI32
{
    f : .n.EnumI32 : 1;
}
}

namespace n {
enum EnumU32 : u32 : 1
{
    VALUE = 0,
}
}

namespace n {
struct StructEnumU32
{
    f : .n.EnumU32 : 1;
}
}

namespace n {
enum EnumI64 : i64 : 1
{
    VALUE = 0,
}
}

namespace n {
struct StructEnumI64
{
    f : .n.EnumI64 : 1;
}
}

namespace n {
enum EnumU64 : u64 : 1
{
    VALUE = 0,
}
}

namespace n {
struct StructEnumU64
{
    f : .n.EnumU64 : 1;
}
}

");
  (* enums/implicit_values.flatdata *)
  ([PNamespace "n" [] [] [PEnum "Enum1" "u16" (Some 3%N) [("VALUE_1", None); ("VALUE_2", Some "3"); ("VALUE_3", None); ("VALUE_4", Some "1"); ("VALUE_5", None)]] []],
   [PNamespace "n" [] [] [PEnum "Enum1" "u16" (Some 3%N) [("VALUE_1", Some "0"); ("VALUE_2", Some "3"); ("VALUE_3", Some "4"); ("VALUE_4", Some "1"); ("VALUE_5", Some "2")]] []],
"namespace n {
enum Enum1 : u16 : 3
{
    VALUE_1 = 0,
    VALUE_2 = 3,
    VALUE_3 = 4,
    VALUE_4 = 1,
    VALUE_5 = 2,
}
}

");
  (* enums/namespaces.flatdata *)
  ([PNamespace "a" [] [] [PEnum "Bar" "u8" (Some 1%N) [("VALUE", Some "0")]] []; PNamespace "b" [] [] [PEnum "Bar" "u8" (Some 1%N) [("VALUE", Some "0")]] []; PNamespace "n" [] [PStruct "Foo" [PField "f" [] ".a.Bar" (Some 1%N)]] [] []; PNamespace "m" [] [PStruct "Foo" [PField "f" [] ".b.Bar" (Some 1%N)]] [] []],
   [PNamespace "a" [] [] [PEnum "Bar" "u8" (Some 1%N) [("VALUE", Some "0")]] []; PNamespace "b" [] [] [PEnum "Bar" "u8" (Some 1%N) [("VALUE", Some "0")]] []; PNamespace "n" [] [PStruct "Foo" [PField "f" [] ".a.Bar" (Some 1%N)]] [] []; PNamespace "m" [] [PStruct "Foo" [PField "f" [] ".b.Bar" (Some 1%N)]] [] []],
"namespace a {
enum Bar : u8 : 1
{
    VALUE = 0,
}
}

namespace b {
enum Bar : u8 : 1
{
    VALUE = 0,
}
}

namespace n {
struct Foo
{
    f : .a.Bar : 1;
}
}

namespace m {
struct Foo
{
    f : .b.Bar : 1;
}
}

");
  (* enums/structs.flatdata *)
  ([PNamespace "n" [] [PStruct "StructEnumI8" [PField "f" [] "EnumI8" (Some 1%N)]; PStruct "StructEnumU8" [PField "f" [] "EnumU8" (Some 1%N)]; PStruct "StructEnumI16" [PField "f" [] "EnumI16" (Some 1%N)]; PStruct "StructEnumU16" [PField "f" [] "EnumU16" (Some 1%N)]; PStruct "StructEnumI32" [PField "f" [] "EnumI32" (Some 1%N)]; PStruct "StructEnumU32" [PField "f" [] "EnumU32" (Some 1%N)]; PStruct "StructEnumI64" [PField "f" [] "EnumI64" (Some 1%N)]; PStruct "StructEnumU64" [PField "f" [] "EnumU64" (Some 1%N)]] [PEnum "EnumI8" "i8" (Some 1%N) [("VALUE", Some "0")]; PEnum "EnumU8" "u8" (Some 1%N) [("VALUE", Some "0")]; PEnum "EnumI16" "i16" (Some 1%N) [("VALUE", Some "0")]; PEnum "EnumU16" "u16" (Some 1%N) [("VALUE", Some "0")]; PEnum "EnumI32" "i32" (Some 1%N) [("VALUE", Some "0")]; PEnum "EnumU32" "u32" (Some 1%N) [("VALUE", Some "0")]; PEnum "EnumI64" "i64" (Some 1%N) [("VALUE", Some "0")]; PEnum "EnumU64" "u64" (Some 1%N) [("VALUE", Some "0")]] []],
   [PNamespace "n" [] [] [PEnum "EnumI8" "i8" (Some 1%N) [("VALUE", Some "0")]] []; PNamespace "n" [] [PStruct "StructEnumI8" [PField "f" [] ".n.EnumI8" (Some 1%N)]] [] []; PNamespace "n" [] [] [PEnum "EnumU8" "u8" (Some 1%N) [("VALUE", Some "0")]] []; PNamespace "n" [] [PStruct "StructEnumU8" [PField "f" [] ".n.EnumU8" (Some 1%N)]] [] []; PNamespace "n" [] [] [PEnum "EnumI16" "i16" (Some 1%N) [("VALUE", Some "0")]] []; PNamespace "n" [] [PStruct "StructEnumI16" [PField "f" [] ".n.EnumI16" (Some 1%N)]] [] []; PNamespace "n" [] [] [PEnum "EnumU16" "u16" (Some 1%N) [("VALUE", Some "0")]] []; PNamespace "n" [] [PStruct "StructEnumU16" [PField "f" [] ".n.EnumU16" (Some 1%N)]] [] []; PNamespace "n" [] [] [PEnum "EnumI32" "i32" (Some 1%N) [("VALUE", Some "0")]] []; PNamespace "n" [] [PStruct "StructEnumI32" [PField "f" [] ".n.EnumI32" (Some 1%N)]] [] []; PNamespace "n" [] [] [PEnum "EnumU32" "u32" (Some 1%N) [("VALUE", Some "0")]] []; PNamespace "n" [] [PStruct "StructEnumU32" [PField "f" [] ".n.EnumU32" (Some 1%N)]] [] []; PNamespace "n" [] [] [PEnum "EnumI64" "i64" (Some 1%N) [("VALUE", Some "0")]] []; PNamespace "n" [] [PStruct "StructEnumI64" [PField "f" [] ".n.EnumI64" (Some 1%N)]] [] []; PNamespace "n" [] [] [PEnum "EnumU64" "u64" (Some 1%N) [("VALUE", Some "0")]] []; PNamespace "n" [] [PStruct "StructEnumU64" [PField "f" [] ".n.EnumU64" (Some 1%N)]] [] []],
"namespace n {
enum EnumI8 : i8 : 1
{
    VALUE = 0,
}
}

namespace n {
struct StructEnumI8
{
    f : .n.EnumI8 : 1;
}
}

namespace n {
enum EnumU8 : u8 : 1
{
    VALUE = 0,
}
}

namespace n {
struct StructEnumU8
{
    f : .n.EnumU8 : 1;
}
}

namespace n {
enum EnumI16 : i16 : 1
{
    VALUE = 0,
}
}

namespace n {
struct StructEnumI16
{
    f : .n.EnumI16 : 1;
}
}

namespace n {
enum EnumU16 : u16 : 1
{
    VALUE = 0,
}
}

namespace n {
struct StructEnumU16
{
    f : .n.EnumU16 : 1;
}
}

namespace n {
enum EnumI32 : i32 : 1
{
    VALUE = 0,
}
}

namespace n {
struct StructEnumI32
{
    f : .n.EnumI32 : 1;
}
}

namespace n {
enum EnumU32 : u32 : 1
{
    VALUE = 0,
}
}

namespace n {
struct StructEnumU32
{
    f : .n.EnumU32 : 1;
}
}

namespace n {
enum EnumI64 : i64 : 1
{
    VALUE = 0,
}
}

namespace n {
struct StructEnumI64
{
    f : .n.EnumI64 : 1;
}
}

namespace n {
enum EnumU64 : u64 : 1
{
    VALUE = 0,
}
}

namespace n {
struct StructEnumU64
{
    f : .n.EnumU64 : 1;
}
}

");
  (* enums/values.flatdata *)
  ([PNamespace "n" [] [] [PEnum "EnumI8" "i8" None [("FOO_I8_NEG", Some "-128"); ("FOO_I8_POS", Some "127"); ("FOO_I8_ZERO", Some "0"); ("FOO_I8_NEG_HEX", Some "-0x7f"); ("FOO_I8_POS_HEX", Some "0x7e"); ("FOO_I8_ONE_HEX", Some "0x1")]; PEnum "EnumU8" "u8" None [("FOO_U8_POS", Some "255"); ("FOO_U8_ZERO", Some "0"); ("FOO_U8_POS_HEX", Some "0xfe"); ("FOO_U8_ONE_HEX", Some "0x1")]] []],
   [PNamespace "n" [] [] [PEnum "EnumI8" "i8" (Some 8%N) [("FOO_I8_NEG", Some "-128"); ("FOO_I8_POS", Some "127"); ("FOO_I8_ZERO", Some "0"); ("FOO_I8_NEG_HEX", Some "-127"); ("FOO_I8_POS_HEX", Some "126"); ("FOO_I8_ONE_HEX", Some "1")]] []; PNamespace "n" [] [] [PEnum "EnumU8" "u8" (Some 8%N) [("FOO_U8_POS", Some "255"); ("FOO_U8_ZERO", Some "0"); ("FOO_U8_POS_HEX", Some "254"); ("FOO_U8_ONE_HEX", Some "1")]] []],
"namespace n {
enum EnumI8 : i8 : 8
{
    FOO_I8_NEG = -128,
    FOO_I8_POS = 127,
    FOO_I8_ZERO = 0,
    FOO_I8_NEG_HEX = -127,
    FOO_I8_POS_HEX = 126,
    FOO_I8_ONE_HEX = 1,
}
}

namespace n {
enum EnumU8 : u8 : 8
{
    FOO_U8_POS = 255,
    FOO_U8_ZERO = 0,
    FOO_U8_POS_HEX = 254,
    FOO_U8_ONE_HEX = 1,
}
}

");
  (* structs/comments.flatdata *)
  ([PNamespace "n" [] [PStruct "Foo" [PField "a" [] "u64" (Some 64%N); PField "b" [] "u64" (Some 64%N)]; PStruct "Bar" [PField "a" [] "u64" (Some 64%N); PField "b" [] "u64" (Some 64%N)]] [] []],
   [PNamespace "n" [] [PStruct "Foo" [PField "a" [] "u64" (Some 64%N); PField "b" [] "u64" (Some 64%N)]] [] []; PNamespace "n" [] [PStruct "Bar" [PField "a" [] "u64" (Some 64%N); PField "b" [] "u64" (Some 64%N)]] [] []],
"namespace n {
struct Foo
{
    a : u64 : 64;
    b : u64 : 64;
}
}

namespace n {
struct Bar
{
    a : u64 : 64;
    b : u64 : 64;
}
}

");
  (* structs/default_width.flatdata *)
  ([PNamespace "n" [] [PStruct "U8" [PField "f" [] "u8" None]; PStruct "I8" [PField "f" [] "i8" None]; PStruct "U16" [PField "f" [] "u16" None]; PStruct "I16" [PField "f" [] "i16" None]; PStruct "U32" [PField "f" [] "u32" None]; PStruct "I32" [PField "f" [] "i32" None]; PStruct "U64" [PField "f" [] "u64" None]; PStruct "I64" [PField "f" [] "i64" None]] [] []],
   [PNamespace "n" [] [PStruct "U8" [PField "f" [] "u8" (Some 8%N)]] [] []; PNamespace "n" [] [PStruct "I8" [PField "f" [] "i8" (Some 8%N)]] [] []; PNamespace "n" [] [PStruct "U16" [PField "f" [] "u16" (Some 16%N)]] [] []; PNamespace "n" [] [PStruct "I16" [PField "f" [] "i16" (Some 16%N)]] [] []; PNamespace "n" [] [PStruct "U32" [PField "f" [] "u32" (Some 32%N)]] [] []; PNamespace "n" [] [PStruct "I32" [PField "f" [] "i32" (Some 32%N)]] [] []; PNamespace "n" [] [PStruct "U64" [PField "f" [] "u64" (Some 64%N)]] [] []; PNamespace "n" [] [PStruct "I64" [PField "f" [] "i64" (Some 64%N)]] [] []],
"namespace n {
struct U8
{
    f : u8 : 8;
}
}

namespace n {
struct I8
{
    f : i8 : 8;
}
}

namespace n {
struct U16
{
    f : u16 : 16;
}
}

namespace n {
struct I16
{
    f : i16 : 16;
}
}

namespace n {
struct U32
{
    f : u32 : 32;
}
}

namespace n {
struct I32
{
    f : i32 : 32;
}
}

namespace n {
struct U64
{
    f : u64 : 64;
}
}

namespace n {
struct I64
{
    f : i64 : 64;
}
}

");
  (* structs/integers.flatdata *)
  ([PNamespace "n" [] [PStruct "U8" [PField "f" [] "u8" (Some 8%N)]; PStruct "I8" [PField "f" [] "i8" (Some 8%N)]; PStruct "U16" [PField "f" [] "u16" (Some 16%N)]; PStruct "I16" [PField "f" [] "i16" (Some 16%N)]; PStruct "U32" [PField "f" [] "u32" (Some 32%N)]; PStruct "I32" [PField "f" [] "i32" (Some 32%N)]; PStruct "U64" [PField "f" [] "u64" (Some 64%N)]; PStruct "I64" [PField "f" [] "i64" (Some 64%N)]] [] []],
   [PNamespace "n" [] [PStruct "U8" [PField "f" [] "u8" (Some 8%N)]] [] []; PNamespace "n" [] [PStruct "I8" [PField "f" [] "i8" (Some 8%N)]] [] []; PNamespace "n" [] [PStruct "U16" [PField "f" [] "u16" (Some 16%N)]] [] []; PNamespace "n" [] [PStruct "I16" [PField "f" [] "i16" (Some 16%N)]] [] []; PNamespace "n" [] [PStruct "U32" [PField "f" [] "u32" (Some 32%N)]] [] []; PNamespace "n" [] [PStruct "I32" [PField "f" [] "i32" (Some 32%N)]] [] []; PNamespace "n" [] [PStruct "U64" [PField "f" [] "u64" (Some 64%N)]] [] []; PNamespace "n" [] [PStruct "I64" [PField "f" [] "i64" (Some 64%N)]] [] []],
"namespace n {
struct U8
{
    f : u8 : 8;
}
}

namespace n {
struct I8
{
    f : i8 : 8;
}
}

namespace n {
struct U16
{
    f : u16 : 16;
}
}

namespace n {
struct I16
{
    f : i16 : 16;
}
}

namespace n {
struct U32
{
    f : u32 : 32;
}
}

namespace n {
struct I32
{
    f : i32 : 32;
}
}

namespace n {
struct U64
{
    f : u64 : 64;
}
}

namespace n {
struct I64
{
    f : i64 : 64;
}
}

");
  (* structs/namespaces.flatdata *)
  ([PNamespace "n" [] [PStruct "Foo" [PField "f" [] "u32" (Some 32%N)]] [] []; PNamespace "m" [] [PStruct "Foo" [PField "f" [] "u32" (Some 32%N)]] [] []],
   [PNamespace "n" [] [PStruct "Foo" [PField "f" [] "u32" (Some 32%N)]] [] []; PNamespace "m" [] [PStruct "Foo" [PField "f" [] "u32" (Some 32%N)]] [] []],
"namespace n {
struct Foo
{
    f : u32 : 32;
}
}

namespace m {
struct Foo
{
    f : u32 : 32;
}
}

");
  (* structs/unaligned.flatdata *)
  ([PNamespace "n" [] [PStruct "U8" [PField "padding" [] "u64" (Some 3%N); PField "f" [] "u8" (Some 5%N)]; PStruct "I8" [PField "padding" [] "u64" (Some 3%N); PField "f" [] "i8" (Some 5%N)]; PStruct "U16" [PField "padding" [] "u64" (Some 3%N); PField "f" [] "u16" (Some 13%N)]; PStruct "I16" [PField "padding" [] "u64" (Some 3%N); PField "f" [] "i16" (Some 13%N)]; PStruct "U32" [PField "padding" [] "u64" (Some 3%N); PField "f" [] "u32" (Some 29%N)]; PStruct "I32" [PField "padding" [] "u64" (Some 3%N); PField "f" [] "i32" (Some 29%N)]; PStruct "U64" [PField "padding" [] "u64" (Some 3%N); PField "f" [] "u64" (Some 61%N)]; PStruct "I64" [PField "padding" [] "u64" (Some 3%N); PField "f" [] "i64" (Some 61%N)]] [] []],
   [PNamespace "n" [] [PStruct "U8" [PField "padding" [] "u64" (Some 3%N); PField "f" [] "u8" (Some 5%N)]] [] []; PNamespace "n" [] [PStruct "I8" [PField "padding" [] "u64" (Some 3%N); PField "f" [] "i8" (Some 5%N)]] [] []; PNamespace "n" [] [PStruct "U16" [PField "padding" [] "u64" (Some 3%N); PField "f" [] "u16" (Some 13%N)]] [] []; PNamespace "n" [] [PStruct "I16" [PField "padding" [] "u64" (Some 3%N); PField "f" [] "i16" (Some 13%N)]] [] []; PNamespace "n" [] [PStruct "U32" [PField "padding" [] "u64" (Some 3%N); PField "f" [] "u32" (Some 29%N)]] [] []; PNamespace "n" [] [PStruct "I32" [PField "padding" [] "u64" (Some 3%N); PField "f" [] "i32" (Some 29%N)]] [] []; PNamespace "n" [] [PStruct "U64" [PField "padding" [] "u64" (Some 3%N); PField "f" [] "u64" (Some 61%N)]] [] []; PNamespace "n" [] [PStruct "I64" [PField "padding" [] "u64" (Some 3%N); PField "f" [] "i64" (Some 61%N)]] [] []],
"namespace n {
struct U8
{
    padding : u64 : 3;
    f : u8 : 5;
}
}

namespace n {
struct I8
{
    padding : u64 : 3;
    f : i8 : 5;
}
}

namespace n {
struct U16
{
    padding : u64 : 3;
    f : u16 : 13;
}
}

namespace n {
struct I16
{
    padding : u64 : 3;
    f : i16 : 13;
}
}

namespace n {
struct U32
{
    padding : u64 : 3;
    f : u32 : 29;
}
}

namespace n {
struct I32
{
    padding : u64 : 3;
    f : i32 : 29;
}
}

namespace n {
struct U64
{
    padding : u64 : 3;
    f : u64 : 61;
}
}

namespace n {
struct I64
{
    padding : u64 : 3;
    f : i64 : 61;
}
}

")].

Example schema_vectors_pass : forallb (fun c => let '(a, b, e) := c in renders a e && renders b e) cases = true.
Proof. vm_compute. reflexivity. Qed.
