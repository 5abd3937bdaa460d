(** Go's float64 and float32: IEEE 754 binary64 and binary32 with rounding to
    nearest, ties to even, as in the standard library's [SpecFloat].  The
    operations are those the package and mp4tool use: conversion of an integer,
    multiplication, division, and comparison. *)
From Coq Require Import ZArith.
From Coq Require Import FloatClass SpecFloat.
Local Open Scope Z_scope.

Definition float := spec_float.
(** float64(n), float32(n) *)
Definition float64_of (n : Z) : float := binary_normalize 53 1024 n 0 false.
Definition float32_of (n : Z) : float := binary_normalize 24 128 n 0 false.
(** x / y *)
Definition float64_div (x y : float) : float := SFdiv 53 1024 x y.
Definition float32_div (x y : float) : float := SFdiv 24 128 x y.
(** x * y, x > y *)
Definition float64_mul (x y : float) : float := SFmul 53 1024 x y.
Definition float64_gt (x y : float) : bool := SFltb y x.
