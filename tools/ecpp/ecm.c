// ecm N B1 B2 curves seed : prints a factor or 0
#include <gmp.h>
#include <stdio.h>
#include <stdlib.h>
#include <string.h>
static mpz_t N,t1,t2,t3,t4,t5,A24;
typedef struct {mpz_t x,z;} P;
static void pinit(P*p){mpz_init(p->x);mpz_init(p->z);}
static void mulm(mpz_t r,mpz_t a,mpz_t b){mpz_mul(r,a,b);mpz_mod(r,r,N);}
static void pdbl(P*r,P*p){
 mpz_add(t1,p->x,p->z);mulm(t1,t1,t1);mpz_sub(t2,p->x,p->z);mulm(t2,t2,t2);
 mpz_sub(t3,t1,t2);mulm(r->x,t1,t2);mpz_mul(t4,A24,t3);mpz_add(t4,t4,t2);mulm(r->z,t4,t3);}
static void padd(P*r,P*p,P*q,P*d){ // r=p+q, d=p-q
 mpz_sub(t1,p->x,p->z);mpz_add(t2,q->x,q->z);mulm(t1,t1,t2);
 mpz_add(t2,p->x,p->z);mpz_sub(t3,q->x,q->z);mulm(t2,t2,t3);
 mpz_add(t3,t1,t2);mpz_mul(t3,t3,t3);mpz_mod(t3,t3,N);mpz_sub(t4,t1,t2);mulm(t4,t4,t4);
 mpz_mul(t3,t3,d->z);mpz_mul(t4,t4,d->x);mpz_mod(r->x,t3,N);mpz_mod(r->z,t4,N);}
static P L0,L1,LT;
static void pmul(P*r,unsigned long k,P*p){
 if(k==1){if(r!=p){mpz_set(r->x,p->x);mpz_set(r->z,p->z);}return;}
 mpz_set(LT.x,p->x);mpz_set(LT.z,p->z);
 mpz_set(L0.x,p->x);mpz_set(L0.z,p->z);pdbl(&L1,p);
 int b=62-__builtin_clzl(k);
 for(;b>=0;b--){ if((k>>b)&1){padd(&L0,&L0,&L1,&LT);pdbl(&L1,&L1);}else{padd(&L1,&L0,&L1,&LT);pdbl(&L0,&L0);} }
 mpz_set(r->x,L0.x);mpz_set(r->z,L0.z);}
int main(int c,char**v){
 mpz_init_set_str(N,v[1],10);unsigned long B1=atol(v[2]),B2=atol(v[3]);int curves=atoi(v[4]);
 gmp_randstate_t rs;gmp_randinit_default(rs);gmp_randseed_ui(rs,atol(v[5]));
 mpz_inits(t1,t2,t3,t4,t5,A24,NULL);pinit(&L0);pinit(&L1);pinit(&LT);
 char*s=calloc(B2+1,1);for(unsigned long i=2;i*i<=B2;i++)if(!s[i])for(unsigned long j=i*i;j<=B2;j+=i)s[j]=1;
 mpz_t sg,u,w,g,acc;mpz_inits(sg,u,w,g,acc,NULL);
 const int D=2310;P S[D/2+1];for(int i=0;i<=D/2;i++)pinit(&S[i]);
 P Q,R,T,U;pinit(&Q);pinit(&R);pinit(&T);pinit(&U);mpz_t inv;mpz_init(inv);
 for(int it=0;it<curves;it++){
  mpz_urandomb(sg,rs,40);mpz_add_ui(sg,sg,6);
  mpz_mul(u,sg,sg);mpz_sub_ui(u,u,5);mpz_mod(u,u,N);mpz_mul_ui(w,sg,4);mpz_mod(w,w,N);
  mpz_powm_ui(Q.x,u,3,N);mpz_powm_ui(Q.z,w,3,N);
  mpz_sub(t1,w,u);mpz_powm_ui(t1,t1,3,N);mpz_mul_ui(t2,u,3);mpz_add(t2,t2,w);mulm(t1,t1,t2);
  mpz_powm_ui(t3,u,3,N);mpz_mul(t3,t3,w);mpz_mul_ui(t3,t3,16);mpz_mod(t3,t3,N);
  if(!mpz_invert(t4,t3,N)){mpz_gcd(g,t3,N);if(mpz_cmp_ui(g,1)>0&&mpz_cmp(g,N)<0){gmp_printf("%Zd\n",g);return 0;}continue;}
  mulm(A24,t1,t4); // (A+2)/4
  for(unsigned long p=2;p<=B1;p++)if(!s[p]){unsigned long q=p;while(q<=B1/p)q*=p;pmul(&Q,q,&Q);}
  mpz_gcd(g,Q.z,N);if(mpz_cmp_ui(g,1)>0){if(mpz_cmp(g,N)<0){gmp_printf("%Zd\n",g);return 0;}continue;}
  // normalise, stage 2
  mpz_invert(inv,Q.z,N);mulm(Q.x,Q.x,inv);mpz_set_ui(Q.z,1);
  // S[i]=iQ for i<=D/2
  mpz_set(S[1].x,Q.x);mpz_set(S[1].z,Q.z);pdbl(&S[2],&Q);
  for(int i=3;i<=D/2;i++)padd(&S[i],&S[i-1],&Q,&S[i-2]);
  mpz_set_ui(acc,1);
  unsigned long m=B1/D; if(m==0)m=1; pmul(&R,D,&Q);P*G=&R;
  pmul(&T,m*D,&Q); if(m>1)pmul(&U,(m-1)*D,&Q); else {mpz_set_ui(U.x,1);mpz_set_ui(U.z,0);} 
  // normalise S by batch? use cross product
  int co[D/2+1],nc=0;for(int i=1;i<=D/2;i++){int a=i,b=D;while(b){int t=a%b;a=b;b=t;}if(a==1)co[nc++]=i;}
  // batch inversion of S[co]
  {static mpz_t pre[2310];static int ini=0;if(!ini){for(int i=0;i<2310;i++)mpz_init(pre[i]);ini=1;}
   mpz_set_ui(pre[0],1);for(int k=0;k<nc;k++)mulm(pre[k+1],pre[k],S[co[k]].z);
   if(!mpz_invert(inv,pre[nc],N)){mpz_gcd(g,pre[nc],N);if(mpz_cmp(g,N)<0){gmp_printf("%Zd\n",g);return 0;}continue;}
   for(int k=nc-1;k>=0;k--){mulm(t5,inv,pre[k]);mulm(inv,inv,S[co[k]].z);mulm(S[co[k]].x,S[co[k]].x,t5);mpz_set_ui(S[co[k]].z,1);}}
  for(;m*D<=B2+D;m++){
   for(int k=0;k<nc;k++){unsigned long a=m*D+co[k],b=m*D-co[k];int f=(a<=B2&&!s[a])||(b<=B2&&b>B1&&!s[b]);
    if(f){mpz_mul(t1,S[co[k]].x,T.z);mpz_sub(t1,T.x,t1);mpz_mul(acc,acc,t1);mpz_mod(acc,acc,N);}}
   // next
   P W;W=U; // swap
   if(mpz_sgn(U.z)==0){ // m==1 : T=D, next=2D
     mpz_set(U.x,T.x);mpz_set(U.z,T.z);pdbl(&T,&T);
   }else{ padd(&U,&T,G,&U); W=U;U=T;T=W; }
  }
  mpz_gcd(g,acc,N);if(mpz_cmp_ui(g,1)>0&&mpz_cmp(g,N)<0){gmp_printf("%Zd\n",g);return 0;}
 }
 printf("0\n");return 0;}
