#!/usr/bin/env python3
"""Generate rocq/theories/Tests.v: every table-driven unit test of /repo, replayed on the model."""
import re
R='/repo/src/'
arith=open(R+'arith.rs').read(); serde=open(R+'serde.rs').read(); rnd=open(R+'round.rs').read()
cmp_=open(R+'cmp.rs').read(); dec=open(R+'decimal.rs').read()
def body(src,name):
    i=src.index('fn %s('%name); j=src.find('#[test]',i)
    b = src[i:j if j>0 else len(src)]
    b = re.sub(r'//[^\n]*','',b)
    return b, src[:i].count('\n')+1
def s(x): return '"%s"'%x
out=[]
def emit(name, cite, typ, rows, check):
    out.append('(** %s *)\nDefinition %s_cases : list (%s) := [\n  %s\n].\nExample %s_ok : forall m, forallb (%s m) %s_cases = true.\nProof. destruct m; vm_compute; reflexivity. Qed.\n'%(cite,name,typ,';\n  '.join(rows),name,check,name))
for op in ['add','sub','mul','div','rem']:
    b,l=body(arith,'test_'+op)
    rows=['(%s, %s, %s)'%(s(x),s(y),s(z)) for x,y,z in re.findall(r'\(\s*"([^"]*)",\s*"([^"]*)",\s*"([^"]*)",?\s*\)',b)]
    n=b.count('("')+len(re.findall(r'\(\s*\n\s*"',b))
    print(op,len(rows),n)
    emit('test_'+op,'src/arith.rs:%d, [test_%s]'%(l,op),'string * string * string',rows,'check_%s'%op)
b,l=body(rnd,'test_round')
rows=['(%s, %s, %s)'%(s(x),'(%s)'%y,s(z)) for x,y,z in re.findall(r'\(\s*"([^"]*)",\s*(-?\d+),\s*"([^"]*)",?\s*\)',b)]
print('round',len(rows))
emit('test_round','src/round.rs:%d, [test_round]'%l,'string * Z * string',rows,'check_round')
b,l=body(serde,'test_to_string')
rows=['(%s, %s, %s)'%(s(x),'(%s)'%y,s(z)) for x,y,z in re.findall(r'\(\s*"([^"]*)",\s*(-?\d+),\s*"([^"]*)",?\s*\)',b)]
print('to_string',len(rows))
emit('test_to_string','src/serde.rs:%d, [test_to_string]'%l,'string * Z * string',rows,'check_to_string')
b,l=body(serde,'test_from_str'); rows=[s(x) for x in re.findall(r'^\s*"([^"]*)",$',b,re.M)]
print('from_str',len(rows)); emit('test_from_str','src/serde.rs:%d, [test_from_str]'%l,'string',rows,'check_parse_ok')
b,l=body(serde,'test_from_str_err'); rows=[s(x) for x in re.findall(r'^\s*"([^"]*)",$',b,re.M)]
print('from_str_err',len(rows)); emit('test_from_str_err','src/serde.rs:%d, [test_from_str_err]'%l,'string',rows,'check_parse_err')
b,l=body(cmp_,'test_cmp')
O={'Equal':'Eq','Less':'Lt','Greater':'Gt'}
rows=['(%s, %s, %s)'%(s(x),s(y),O[z]) for x,y,z in re.findall(r'\(\s*"([^"]*)",\s*"([^"]*)",\s*Ordering::(\w+),?\s*\)',b)]
print('cmp',len(rows)); emit('test_cmp','src/cmp.rs:%d, [test_cmp]'%l,'string * string * comparison',rows,'check_cmp')
b,l=body(dec,'test_from_i64'); rows=['(%s, %s)'%('(%s)'%x,s(y)) for x,y in re.findall(r'\((-?\d+)(?:i64)?, "([^"]*)"\)',b)]
print('from_i64',len(rows)); emit('test_from_i64','src/decimal.rs:%d, [test_from_i64]'%l,'Z * string',rows,'check_from_i64')
b,l=body(dec,'test_from_u64'); rows=['(%s, %s)'%('(%s)'%x,s(y)) for x,y in re.findall(r'\((-?\d+)(?:u64)?, "([^"]*)"\)',b)]
print('from_u64',len(rows)); emit('test_from_u64','src/decimal.rs:%d, [test_from_u64]'%l,'Z * string',rows,'check_from_u64')
for t,src in [('i64',dec),('u64',dec)]:
    b,l=body(dec,'test_to_'+t); rows=['(%s, %s)'%(s(x),'(%s)'%y) for x,y in re.findall(r'\("([^"]*)", (-?\d+)(?:%s)?\)'%t,b)]
    print('to_'+t,len(rows)); emit('test_to_'+t,'src/decimal.rs:%d, [test_to_%s], success'%(l,t),'string * Z',rows,'check_to_'+t)
    rows=[s(x) for x in re.findall(r'^\s*"([^"]*)",$',b,re.M)]
    print('to_%s_err'%t,len(rows)); emit('test_to_%s_err'%t,'src/decimal.rs:%d, [test_to_%s], fail'%(l,t),'string',rows,'check_to_%s_err'%t)
b,l=body(dec,'test_hash'); rows=['(%s, %s)'%(s(x),s(y)) for x,y in re.findall(r'\("([^"]*)", "([^"]*)"\)',b)]
print('hash',len(rows)); emit('test_hash','src/decimal.rs:%d, [test_hash]'%l,'string * string',rows,'check_hash')
ut=open(R+'utils.rs').read(); b,l=body(ut,'test_units_greater_equal')
rows=['([%s], [%s], %s)'%(x.replace(',',';'),y.replace(',',';'),z) for x,y,z in re.findall(r'\(vec!\[([^\]]*)\], vec!\[([^\]]*)\], (\w+)\)',b)]
print('uge',len(rows)); emit('test_uge','src/utils.rs:%d, [test_units_greater_equal]'%l,'list Z * list Z * bool',rows,'check_uge')
pre='''(** * The unit tests of the repository, replayed on the model.

    GENERATED by tools/gen_tests.py from the source text.  These are tests of
    the model's fidelity (the expected outputs are those the authors wrote for
    the real code), not proofs of properties.  Each table is checked in both
    build profiles. *)
From Coq Require Import ZArith List Bool String Ascii.
Import ListNotations.
From Verif Require Import Rust Tables Model_Base Model_Cmp Model_Round Model_Decimal Model_Arith Model_Serde.
Open Scope Z_scope.
Open Scope string_scope.

Fixpoint bytes (s : string) : list Z :=
  match s with
  | EmptyString => []
  | String a s' => Z.of_nat (nat_of_ascii a) :: bytes s'
  end.

Definition list_eqb (a b : list Z) : bool :=
  if list_eq_dec Z.eq_dec a b then true else false.

(** [fd.from_ascii_str(s, true)] on a used target. *)
Definition p (m : build) (s : string) : outcome fd :=
  '(r, d) <- from_ascii_str m one (bytes s) true ;;
  match r with Ok _ => Ret d | Err _ => Panic POperator end.

Definition is_true (o : outcome bool) : bool := match o with Ret b => b | Panic _ => false end.

Definition shows (m : build) (d : fd) (f : Z) (s : string) : outcome bool :=
  t <- to_string m d f ;; Ret (list_eqb t (bytes s)).

Definition check2 (f : build -> fd -> fd -> fd -> outcome (result unit * fd))
  (g : build -> fd -> fd -> outcome fd) (m : build) (t : string * string * string) : bool :=
  let '(a, b, c) := t in
  is_true (a <- p m a ;; b <- p m b ;;
           '(r, d) <- f m a b one ;;
           match r with
           | Err _ => Ret false
           | Ok _ => x <- shows m d (-1) c ;; e <- g m a b ;; y <- shows m e (-1) c ;; Ret (x && y)
           end).
Definition check_add := check2 add_to op_add.
Definition check_sub := check2 sub_to op_sub.
Definition check_mul := check2 mul_to op_mul.
Definition check_div := check2 (fun m a b r => div_to m a b r DIV_INCR_FRAC) op_div.
Definition check_rem := check2 rem_to op_rem.
Definition check_round (m : build) (t : string * Z * string) : bool :=
  let '(a, f, c) := t in
  is_true (a <- p m a ;; r <- round_to m a one f ;; x <- shows m r (-1) c ;;
           r <- round m a f ;; y <- shows m r (-1) c ;; Ret (x && y)).
Definition check_to_string (m : build) (t : string * Z * string) : bool :=
  let '(a, f, c) := t in is_true (a <- p m a ;; shows m a f c).
Definition check_parse_ok (m : build) (s : string) : bool :=
  is_true (_ <- p m s ;; Ret true).
Definition check_parse_err (m : build) (s : string) : bool :=
  is_true ('(r, _) <- from_ascii_str m one (bytes s) true ;;
           match r with Ok _ => Ret false | Err _ => Ret true end).
Definition check_cmp (m : build) (t : string * string * comparison) : bool :=
  let '(a, b, c) := t in
  is_true (a <- p m a ;; b <- p m b ;; r <- cmp m a b ;;
           Ret (match r, c with Eq, Eq | Lt, Lt | Gt, Gt => true | _, _ => false end)).
Definition fs (m : build) (s : string) : outcome fd :=
  r <- from_str m (bytes s) ;; match r with Ok d => Ret d | Err _ => Panic POperator end.
Definition check_from_i64 (m : build) (t : Z * string) : bool :=
  let '(i, s) := t in is_true (a <- from_i64 m i ;; b <- fs m s ;; eq m a b).
Definition check_from_u64 (m : build) (t : Z * string) : bool :=
  let '(i, s) := t in is_true (a <- from_u64 m i ;; b <- fs m s ;; eq m a b).
Definition check_to (f : build -> fd -> outcome (result Z)) (m : build) (t : string * Z) : bool :=
  let '(s, i) := t in
  is_true (a <- fs m s ;; r <- f m a ;; match r with Ok v => Ret (Z.eqb v i) | Err _ => Ret false end).
Definition check_to_err (f : build -> fd -> outcome (result Z)) (m : build) (s : string) : bool :=
  is_true (a <- fs m s ;; r <- f m a ;; match r with Ok v => Ret false | Err _ => Ret true end).
Definition check_to_i64 := check_to as_i64.
Definition check_to_u64 := check_to as_u64.
Definition check_to_i64_err := check_to_err as_i64.
Definition check_to_u64_err := check_to_err as_u64.
Definition hw_eqb (a b : hash_write) : bool :=
  match a, b with
  | WriteU8 x, WriteU8 y | WriteU32 x, WriteU32 y => Z.eqb x y
  | _, _ => false
  end.
Definition check_hash (m : build) (t : string * string) : bool :=
  let '(a, b) := t in
  is_true (a <- fs m a ;; b <- fs m b ;; x <- hash m a ;; y <- hash m b ;;
           Ret (Nat.eqb (List.length x) (List.length y) && forallb (fun q => hw_eqb (fst q) (snd q)) (combine x y))).
Definition check_uge (m : build) (t : list Z * list Z * bool) : bool :=
  let '(a, b, c) := t in Bool.eqb (units_greater_equal a b) c.

'''
open('/verif/rocq/theories/Tests.v','w').write(pre+'\n'.join(out))
