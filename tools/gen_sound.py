"""Generates ActionSound.v: each action of y.go computes the value that the rule of
asn1.y gives (one lemma per production)."""
import re
import gosrc
from lalr import NT
out='/verif/rocq/theories/'
acts=gosrc.actions(); rules=gosrc.rules(); ty=gosrc.types()
nts=[]
for n,l,r,a,ln in rules:
    if l not in nts: nts.append(l)
ATXT=dict((int(a),b) for a,b in re.findall(r'Definition act_(\d+) : action := fun d v =>\n(.*?)\n\n',open(out+'Actions.v').read(),re.S))
def actname(n):
    if n not in acts: return 'act_default'
    t=ATXT[n]; u=[m for a,m in (('addr_Value','mkP'),('addr_DefinedValue','mkR'),('new_DefinedValue','mkF')) if a in t]
    return '(%s)'%' '.join(['act_%d'%n]+u)
MAPS='tmap nmap cmap csmap emap imap value_map oe_map nb_map tag_map re_map ctl_map ct_map gmr_map sfm_map amap mb_map md_map option_map map app'
with open(out+'ActionSound.v','w') as f:
    f.write('''(** The actions of y.go (Actions.v) against the rules of asn1.y (Grammar.v), one
    lemma per production.  Generated by tools/gen_sound.py. *)
From Coq Require Import ZArith String List Bool Lia.
From Verif Require Import GoBase Tokens Tables Ast RealNum Actions Lexer Driver Grammar Automaton
  DriverTables.
Import ListNotations.
Local Open Scope Z_scope.

(** What pointers pointed to when they were made. *)
Definition snapD (p : ptrD) : DefinedValue := pd_snap p.
Definition snapV (p : ptrV) : value DefinedValue := value_map snapD (pv_snap p).
Definition snapM (m : ModuleDefinition ptrV ptrD) : Module_ := md_map snapV snapD m.

(** The value of a nonterminal held in a stack entry. *)
Definition sem_of (N : nonterm) (v : sym) : sem :=
  match N with
''')
    for x in nts:
        t=ty.get(x)
        f.write('  | N_%s => %s\n'%(x,('S_%s (yy_%s (yy_map snapV snapD v))'%(t,t)) if t else 'S_none'))
    f.write('''  end.

(** A stack entry holds what the lexer gave for the token. *)
Definition tok_vals (t : token) (v : sym) : Prop :=
  (tk_kind t = T_TYPEORMODULEREFERENCE \\/ tk_kind t = T_VALUEIDENTIFIER -> tk_name t = yy_name v)
  /\\ (tk_kind t = T_NUMBER -> tk_number t = yy_Number v).

(** A stack entry with accessing symbol [X] holds the value of the item [i]. *)
Definition holds (X : Z) (v : sym) (i : item) : Prop :=
  match i with
  | Tk t => 0 < X /\\ tk_kind t = X + 57342 /\\ tok_vals t v
  | Nt N s => X < 0 /\\ nth (Z.to_nat (- X)) nonterms None = Some N /\\ s = sem_of N v
  end.

(** The value stack entries of a right side hold the values of its items. *)
Fixpoint matches (r : list Z) (k : nat) (d : nat -> sym) (its : list item) : Prop :=
  match r with
  | [] => its = []
  | X :: r' => exists i its', its = i :: its' /\\ holds X (d k) i /\\ matches r' (S k) d its'
  end.

Lemma holds_nt N X v i : (X <? 0) = true -> nth (Z.to_nat (- X)) nonterms None = Some N ->
  holds X v i -> i = Nt N (sem_of N v).
Proof.
  rewrite Z.ltb_lt. intros Hx E. destruct i as [t|M s]; cbn [holds]; [lia|]. intros (_ & F & ->). congruence.
Qed.

Lemma holds_tk X v i : (0 <? X) = true -> holds X v i ->
  exists t, i = Tk t /\\ tk_kind t = X + 57342 /\\ tok_vals t v.
Proof.
  rewrite Z.ltb_lt. intros Hx. destruct i as [t|M s]; cbn [holds]; [|lia]. intros (_ & H). now exists t.
Qed.

Lemma cast (R : nonterm -> list item -> sem -> Prop) N its s s' : R N its s -> s = s' -> R N its s'.
Proof. now intros H <-. Qed.

Lemma map_ext_id {A} (f : A -> A) l : (forall x, f x = x) -> map f l = l.
Proof. intros H. rewrite (map_ext _ (fun x => x)) by assumption. apply map_id. Qed.

Section Sound.
  Context (mkP : nat -> value ptrD -> ptrV) (mkR : nat -> DefinedValue -> ptrD)
    (mkF : DefinedValue -> ptrD).
  Context (HP : forall k v, pv_snap (mkP k v) = v).
  Context (HR : forall k x, pd_snap (mkR k x) = x).
  Context (HF : forall x, pd_snap (mkF x) = x).

  (** Production [n] with action [act]. *)
  Definition Sound (n : Z) (act : (nat -> sym) -> sym -> sym * option (ModuleDefinition ptrV ptrD)) : Prop :=
    forall d its, matches (rhs n) 1 d its ->
      if n =? 1 then exists m, snd (act d (d 1%nat)) = Some m
                       /\\ rule 1 N_ModuleDefinition its (S_module (snapM m))
      else snd (act d (d 1%nat)) = None
           /\\ exists N, nth (Z.to_nat (lhs n)) nonterms None = Some N
                /\\ rule n N its (sem_of N (fst (act d (d 1%nat)))).

  Ltac val :=
    unfold snapM, md_map; cbn [fst snd]; 
    repeat match goal with
      | T : tok_vals ?t _, K : tk_kind ?t = _ |- context [tk_name ?t] =>
          rewrite (proj1 T) by (rewrite K; auto)
      | T : tok_vals ?t _, K : tk_kind ?t = _ |- context [tk_number ?t] =>
          rewrite (proj2 T) by (rewrite K; reflexivity)
      end;
    cbn [yy_map sem_of @F@];
    unfold snapV, snapD; rewrite ?HP, ?HR, ?HF;
    try reflexivity;
    cbn [@F@ @M@ snapV snapD oe_Name oe_ID oe_Reference ctl_Components ctl_ExtensionAdditions ctl_TrailingComponents ct_AlternativeTypeList ct_ExtensionTypes];
    rewrite ?map_app; unfold snapV, snapD; cbn [@M@]; rewrite ?HP, ?HR, ?HF; try reflexivity;
    unfold oe_map; cbn [option_map oe_Name oe_ID oe_Reference]; rewrite ?HP, ?HR, ?HF; try reflexivity.

'''.replace('@F@',' '.join('yy_%s set_%s'%(a,a) for a,_ in gosrc.union_fields() if a not in('SequenceType','SequenceOfType'))).replace('@M@',MAPS))
    from lalr import PRODS
    for n,l,r,a,ln in rules:
        args=[];prem=[];pat=[];des=[]
        for k,x in enumerate(r,1):
            pat.append('i%d & its%d & -> & H%d'%(k,k,k))
            if x in nts:
                des.append('apply (holds_nt N_%s) in H%d; [|reflexivity|reflexivity]; subst i%d.'%(x,k,k))
                if ty.get(x): args.append('_')
            else:
                des.append('apply holds_tk in H%d as (t%d & -> & K%d & V%d); [|reflexivity].'%(k,k,k,k))
                args.append('t%d'%k); prem.append('K%d'%k)
        f.write('  (* asn1.y:%d *)\n  Lemma sound_%d : Sound %d %s.\n  Proof.\n    intros d its H. change (rhs %d) with %s in H. cbn [matches] in H.\n    %s.\n    %s\n'%(ln,n,n,
            actname(n),n,('[%s]'%'; '.join('%d'%z for z in PRODS[n][1])) if r else '(@nil Z)',
            ('destruct H as ('+' & '.join(pat)+' & ->)') if pat else 'subst its',' '.join(des)))
        f.write('    change (%d =? 1) with %s. cbv iota.\n'%(n,'true' if n==1 else 'false'))
        if n==1:
            f.write('    eexists. split; [reflexivity|].\n')
        else:
            f.write('    split; [reflexivity|]. exists N_%s. split; [reflexivity|].\n'%l)
        f.write('    change (rule %d) with rule_%d. refine (cast _ _ _ _ _ (G_%d %s) _). unfold act_%s. val.\n  Qed.\n\n'%(n,n,n,' '.join(args+prem),n if n in acts else 'default'))
    f.write('''  Lemma all_sound n act : 0 < n < 292 ->
    nth_error (actions mkP mkR mkF) (Z.to_nat n) = Some act -> Sound n act.
  Proof.
    intros Hn Ha.
    assert (Q : Forall (fun p => Sound (fst p) (snd p))
      (combine (map Z.of_nat (seq 1 291)) (tl (actions mkP mkR mkF)))).
    { cbn [seq map combine tl actions].
''')
    f.write('      exact (\n'+'\n'.join('        Forall_cons (%d, %s) sound_%d ('%(n,actname(n),n) for n,*_ in rules)+'\n        Forall_nil _'+')'*len(rules)+').')
    f.write(''' }
    rewrite Forall_forall in Q. apply (Q (n, act)).
    replace n with (Z.of_nat (Z.to_nat n)) by lia. revert Ha.
    assert (Hk : (1 <= Z.to_nat n <= 291)%nat) by lia.
    generalize dependent (Z.to_nat n). intros k Hk Ha. destruct k as [|k]; [lia|].
    clear -Ha Hk.
    assert (E : nth_error (combine (map Z.of_nat (seq 1 291)) (tl (actions mkP mkR mkF))) k
                = Some (Z.of_nat (S k), act)).
    { change (nth_error (actions mkP mkR mkF) (S k)) with (nth_error (tl (actions mkP mkR mkF)) k) in Ha.
      assert (E1 : nth_error (map Z.of_nat (seq 1 291)) k = Some (Z.of_nat (S k))).
      { rewrite nth_error_map. rewrite nth_error_nth' with (d := 0%nat) by (rewrite seq_length; lia).
        rewrite seq_nth by lia. reflexivity. }
      revert E1 Ha. generalize (map Z.of_nat (seq 1 291)) as l1, (tl (actions mkP mkR mkF)) as l2.
      clear. generalize (Z.of_nat (S k)) as z. induction k; intros z [|a l1] [|b l2] H1 H2; cbn in *; try discriminate.
      - congruence.
      - now apply IHk. }
    now apply nth_error_In in E.
  Qed.
End Sound.
''')
