(** Generated by /verif/tools/gen_netlists.py from /repo/src/circuits/arithmetic/mult2_64.txt. *)
From Verif Require Import Netlist.
Open Scope N_scope.
Open Scope list_scope.

(** Lines 5-404 of the file. *)
Definition mult2_64_0 : list cg := [
  CA 127 63 4159; CA 127 62 4160; CA 127 61 4161; CA 127 60 4162; CA 127 59 4163; CA 127 58 4164; CA 127 57 4165; CA 127 56 4166;
  CA 127 55 4167; CA 127 54 4168; CA 127 53 4169; CA 127 52 4170; CA 127 51 4171; CA 127 50 4172; CA 127 49 4173; CA 127 48 4174;
  CA 127 47 4175; CA 127 46 4176; CA 127 45 4177; CA 127 44 4178; CA 127 43 4179; CA 127 42 4180; CA 127 41 4181; CA 127 40 4182;
  CA 127 39 4183; CA 127 38 4184; CA 127 37 4185; CA 127 36 4186; CA 127 35 4187; CA 127 34 4188; CA 127 33 4189; CA 127 32 4190;
  CA 127 31 4191; CA 127 30 4192; CA 127 29 4193; CA 127 28 4194; CA 127 27 4195; CA 127 26 4196; CA 127 25 4197; CA 127 24 4198;
  CA 127 23 4199; CA 127 22 4200; CA 127 21 4201; CA 127 20 4202; CA 127 19 4203; CA 127 18 4204; CA 127 17 4205; CA 127 16 4206;
  CA 127 15 4207; CA 127 14 4208; CA 127 13 4209; CA 127 12 4210; CA 127 11 4211; CA 127 10 4212; CA 127 9 4213; CA 127 8 4214;
  CA 127 7 4215; CA 127 6 4216; CA 127 5 4217; CA 127 4 4218; CA 127 3 4219; CA 127 2 4220; CA 127 1 4221; CA 127 0 4222;
  CA 126 63 4095; CA 126 62 4096; CA 126 61 4097; CA 126 60 4098; CA 126 59 4099; CA 126 58 4100; CA 126 57 4101; CA 126 56 4102;
  CA 126 55 4103; CA 126 54 4104; CA 126 53 4105; CA 126 52 4106; CA 126 51 4107; CA 126 50 4108; CA 126 49 4109; CA 126 48 4110;
  CA 126 47 4111; CA 126 46 4112; CA 126 45 4113; CA 126 44 4114; CA 126 43 4115; CA 126 42 4116; CA 126 41 4117; CA 126 40 4118;
  CA 126 39 4119; CA 126 38 4120; CA 126 37 4121; CA 126 36 4122; CA 126 35 4123; CA 126 34 4124; CA 126 33 4125; CA 126 32 4126;
  CA 126 31 4127; CA 126 30 4128; CA 126 29 4129; CA 126 28 4130; CA 126 27 4131; CA 126 26 4132; CA 126 25 4133; CA 126 24 4134;
  CA 126 23 4135; CA 126 22 4136; CA 126 21 4137; CA 126 20 4138; CA 126 19 4139; CA 126 18 4140; CA 126 17 4141; CA 126 16 4142;
  CA 126 15 4143; CA 126 14 4144; CA 126 13 4145; CA 126 12 4146; CA 126 11 4147; CA 126 10 4148; CA 126 9 4149; CA 126 8 4150;
  CA 126 7 4151; CA 126 6 4152; CA 126 5 4153; CA 126 4 4154; CA 126 3 4155; CA 126 2 4156; CA 126 1 4157; CA 126 0 4158;
  CA 125 63 4031; CA 125 62 4032; CA 125 61 4033; CA 125 60 4034; CA 125 59 4035; CA 125 58 4036; CA 125 57 4037; CA 125 56 4038;
  CA 125 55 4039; CA 125 54 4040; CA 125 53 4041; CA 125 52 4042; CA 125 51 4043; CA 125 50 4044; CA 125 49 4045; CA 125 48 4046;
  CA 125 47 4047; CA 125 46 4048; CA 125 45 4049; CA 125 44 4050; CA 125 43 4051; CA 125 42 4052; CA 125 41 4053; CA 125 40 4054;
  CA 125 39 4055; CA 125 38 4056; CA 125 37 4057; CA 125 36 4058; CA 125 35 4059; CA 125 34 4060; CA 125 33 4061; CA 125 32 4062;
  CA 125 31 4063; CA 125 30 4064; CA 125 29 4065; CA 125 28 4066; CA 125 27 4067; CA 125 26 4068; CA 125 25 4069; CA 125 24 4070;
  CA 125 23 4071; CA 125 22 4072; CA 125 21 4073; CA 125 20 4074; CA 125 19 4075; CA 125 18 4076; CA 125 17 4077; CA 125 16 4078;
  CA 125 15 4079; CA 125 14 4080; CA 125 13 4081; CA 125 12 4082; CA 125 11 4083; CA 125 10 4084; CA 125 9 4085; CA 125 8 4086;
  CA 125 7 4087; CA 125 6 4088; CA 125 5 4089; CA 125 4 4090; CA 125 3 4091; CA 125 2 4092; CA 125 1 4093; CA 125 0 4094;
  CA 124 63 3967; CA 124 62 3968; CA 124 61 3969; CA 124 60 3970; CA 124 59 3971; CA 124 58 3972; CA 124 57 3973; CA 124 56 3974;
  CA 124 55 3975; CA 124 54 3976; CA 124 53 3977; CA 124 52 3978; CA 124 51 3979; CA 124 50 3980; CA 124 49 3981; CA 124 48 3982;
  CA 124 47 3983; CA 124 46 3984; CA 124 45 3985; CA 124 44 3986; CA 124 43 3987; CA 124 42 3988; CA 124 41 3989; CA 124 40 3990;
  CA 124 39 3991; CA 124 38 3992; CA 124 37 3993; CA 124 36 3994; CA 124 35 3995; CA 124 34 3996; CA 124 33 3997; CA 124 32 3998;
  CA 124 31 3999; CA 124 30 4000; CA 124 29 4001; CA 124 28 4002; CA 124 27 4003; CA 124 26 4004; CA 124 25 4005; CA 124 24 4006;
  CA 124 23 4007; CA 124 22 4008; CA 124 21 4009; CA 124 20 4010; CA 124 19 4011; CA 124 18 4012; CA 124 17 4013; CA 124 16 4014;
  CA 124 15 4015; CA 124 14 4016; CA 124 13 4017; CA 124 12 4018; CA 124 11 4019; CA 124 10 4020; CA 124 9 4021; CA 124 8 4022;
  CA 124 7 4023; CA 124 6 4024; CA 124 5 4025; CA 124 4 4026; CA 124 3 4027; CA 124 2 4028; CA 124 1 4029; CA 124 0 4030;
  CA 123 63 3903; CA 123 62 3904; CA 123 61 3905; CA 123 60 3906; CA 123 59 3907; CA 123 58 3908; CA 123 57 3909; CA 123 56 3910;
  CA 123 55 3911; CA 123 54 3912; CA 123 53 3913; CA 123 52 3914; CA 123 51 3915; CA 123 50 3916; CA 123 49 3917; CA 123 48 3918;
  CA 123 47 3919; CA 123 46 3920; CA 123 45 3921; CA 123 44 3922; CA 123 43 3923; CA 123 42 3924; CA 123 41 3925; CA 123 40 3926;
  CA 123 39 3927; CA 123 38 3928; CA 123 37 3929; CA 123 36 3930; CA 123 35 3931; CA 123 34 3932; CA 123 33 3933; CA 123 32 3934;
  CA 123 31 3935; CA 123 30 3936; CA 123 29 3937; CA 123 28 3938; CA 123 27 3939; CA 123 26 3940; CA 123 25 3941; CA 123 24 3942;
  CA 123 23 3943; CA 123 22 3944; CA 123 21 3945; CA 123 20 3946; CA 123 19 3947; CA 123 18 3948; CA 123 17 3949; CA 123 16 3950;
  CA 123 15 3951; CA 123 14 3952; CA 123 13 3953; CA 123 12 3954; CA 123 11 3955; CA 123 10 3956; CA 123 9 3957; CA 123 8 3958;
  CA 123 7 3959; CA 123 6 3960; CA 123 5 3961; CA 123 4 3962; CA 123 3 3963; CA 123 2 3964; CA 123 1 3965; CA 123 0 3966;
  CA 122 63 3839; CA 122 62 3840; CA 122 61 3841; CA 122 60 3842; CA 122 59 3843; CA 122 58 3844; CA 122 57 3845; CA 122 56 3846;
  CA 122 55 3847; CA 122 54 3848; CA 122 53 3849; CA 122 52 3850; CA 122 51 3851; CA 122 50 3852; CA 122 49 3853; CA 122 48 3854;
  CA 122 47 3855; CA 122 46 3856; CA 122 45 3857; CA 122 44 3858; CA 122 43 3859; CA 122 42 3860; CA 122 41 3861; CA 122 40 3862;
  CA 122 39 3863; CA 122 38 3864; CA 122 37 3865; CA 122 36 3866; CA 122 35 3867; CA 122 34 3868; CA 122 33 3869; CA 122 32 3870;
  CA 122 31 3871; CA 122 30 3872; CA 122 29 3873; CA 122 28 3874; CA 122 27 3875; CA 122 26 3876; CA 122 25 3877; CA 122 24 3878;
  CA 122 23 3879; CA 122 22 3880; CA 122 21 3881; CA 122 20 3882; CA 122 19 3883; CA 122 18 3884; CA 122 17 3885; CA 122 16 3886;
  CA 122 15 3887; CA 122 14 3888; CA 122 13 3889; CA 122 12 3890; CA 122 11 3891; CA 122 10 3892; CA 122 9 3893; CA 122 8 3894;
  CA 122 7 3895; CA 122 6 3896; CA 122 5 3897; CA 122 4 3898; CA 122 3 3899; CA 122 2 3900; CA 122 1 3901; CA 122 0 3902;
  CA 121 63 3775; CA 121 62 3776; CA 121 61 3777; CA 121 60 3778; CA 121 59 3779; CA 121 58 3780; CA 121 57 3781; CA 121 56 3782;
  CA 121 55 3783; CA 121 54 3784; CA 121 53 3785; CA 121 52 3786; CA 121 51 3787; CA 121 50 3788; CA 121 49 3789; CA 121 48 3790].
(** Lines 405-804 of the file. *)
Definition mult2_64_1 : list cg := [
  CA 121 47 3791; CA 121 46 3792; CA 121 45 3793; CA 121 44 3794; CA 121 43 3795; CA 121 42 3796; CA 121 41 3797; CA 121 40 3798;
  CA 121 39 3799; CA 121 38 3800; CA 121 37 3801; CA 121 36 3802; CA 121 35 3803; CA 121 34 3804; CA 121 33 3805; CA 121 32 3806;
  CA 121 31 3807; CA 121 30 3808; CA 121 29 3809; CA 121 28 3810; CA 121 27 3811; CA 121 26 3812; CA 121 25 3813; CA 121 24 3814;
  CA 121 23 3815; CA 121 22 3816; CA 121 21 3817; CA 121 20 3818; CA 121 19 3819; CA 121 18 3820; CA 121 17 3821; CA 121 16 3822;
  CA 121 15 3823; CA 121 14 3824; CA 121 13 3825; CA 121 12 3826; CA 121 11 3827; CA 121 10 3828; CA 121 9 3829; CA 121 8 3830;
  CA 121 7 3831; CA 121 6 3832; CA 121 5 3833; CA 121 4 3834; CA 121 3 3835; CA 121 2 3836; CA 121 1 3837; CA 121 0 3838;
  CA 120 63 3711; CA 120 62 3712; CA 120 61 3713; CA 120 60 3714; CA 120 59 3715; CA 120 58 3716; CA 120 57 3717; CA 120 56 3718;
  CA 120 55 3719; CA 120 54 3720; CA 120 53 3721; CA 120 52 3722; CA 120 51 3723; CA 120 50 3724; CA 120 49 3725; CA 120 48 3726;
  CA 120 47 3727; CA 120 46 3728; CA 120 45 3729; CA 120 44 3730; CA 120 43 3731; CA 120 42 3732; CA 120 41 3733; CA 120 40 3734;
  CA 120 39 3735; CA 120 38 3736; CA 120 37 3737; CA 120 36 3738; CA 120 35 3739; CA 120 34 3740; CA 120 33 3741; CA 120 32 3742;
  CA 120 31 3743; CA 120 30 3744; CA 120 29 3745; CA 120 28 3746; CA 120 27 3747; CA 120 26 3748; CA 120 25 3749; CA 120 24 3750;
  CA 120 23 3751; CA 120 22 3752; CA 120 21 3753; CA 120 20 3754; CA 120 19 3755; CA 120 18 3756; CA 120 17 3757; CA 120 16 3758;
  CA 120 15 3759; CA 120 14 3760; CA 120 13 3761; CA 120 12 3762; CA 120 11 3763; CA 120 10 3764; CA 120 9 3765; CA 120 8 3766;
  CA 120 7 3767; CA 120 6 3768; CA 120 5 3769; CA 120 4 3770; CA 120 3 3771; CA 120 2 3772; CA 120 1 3773; CA 120 0 3774;
  CA 119 63 3647; CA 119 62 3648; CA 119 61 3649; CA 119 60 3650; CA 119 59 3651; CA 119 58 3652; CA 119 57 3653; CA 119 56 3654;
  CA 119 55 3655; CA 119 54 3656; CA 119 53 3657; CA 119 52 3658; CA 119 51 3659; CA 119 50 3660; CA 119 49 3661; CA 119 48 3662;
  CA 119 47 3663; CA 119 46 3664; CA 119 45 3665; CA 119 44 3666; CA 119 43 3667; CA 119 42 3668; CA 119 41 3669; CA 119 40 3670;
  CA 119 39 3671; CA 119 38 3672; CA 119 37 3673; CA 119 36 3674; CA 119 35 3675; CA 119 34 3676; CA 119 33 3677; CA 119 32 3678;
  CA 119 31 3679; CA 119 30 3680; CA 119 29 3681; CA 119 28 3682; CA 119 27 3683; CA 119 26 3684; CA 119 25 3685; CA 119 24 3686;
  CA 119 23 3687; CA 119 22 3688; CA 119 21 3689; CA 119 20 3690; CA 119 19 3691; CA 119 18 3692; CA 119 17 3693; CA 119 16 3694;
  CA 119 15 3695; CA 119 14 3696; CA 119 13 3697; CA 119 12 3698; CA 119 11 3699; CA 119 10 3700; CA 119 9 3701; CA 119 8 3702;
  CA 119 7 3703; CA 119 6 3704; CA 119 5 3705; CA 119 4 3706; CA 119 3 3707; CA 119 2 3708; CA 119 1 3709; CA 119 0 3710;
  CA 118 63 3583; CA 118 62 3584; CA 118 61 3585; CA 118 60 3586; CA 118 59 3587; CA 118 58 3588; CA 118 57 3589; CA 118 56 3590;
  CA 118 55 3591; CA 118 54 3592; CA 118 53 3593; CA 118 52 3594; CA 118 51 3595; CA 118 50 3596; CA 118 49 3597; CA 118 48 3598;
  CA 118 47 3599; CA 118 46 3600; CA 118 45 3601; CA 118 44 3602; CA 118 43 3603; CA 118 42 3604; CA 118 41 3605; CA 118 40 3606;
  CA 118 39 3607; CA 118 38 3608; CA 118 37 3609; CA 118 36 3610; CA 118 35 3611; CA 118 34 3612; CA 118 33 3613; CA 118 32 3614;
  CA 118 31 3615; CA 118 30 3616; CA 118 29 3617; CA 118 28 3618; CA 118 27 3619; CA 118 26 3620; CA 118 25 3621; CA 118 24 3622;
  CA 118 23 3623; CA 118 22 3624; CA 118 21 3625; CA 118 20 3626; CA 118 19 3627; CA 118 18 3628; CA 118 17 3629; CA 118 16 3630;
  CA 118 15 3631; CA 118 14 3632; CA 118 13 3633; CA 118 12 3634; CA 118 11 3635; CA 118 10 3636; CA 118 9 3637; CA 118 8 3638;
  CA 118 7 3639; CA 118 6 3640; CA 118 5 3641; CA 118 4 3642; CA 118 3 3643; CA 118 2 3644; CA 118 1 3645; CA 118 0 3646;
  CA 117 63 3519; CA 117 62 3520; CA 117 61 3521; CA 117 60 3522; CA 117 59 3523; CA 117 58 3524; CA 117 57 3525; CA 117 56 3526;
  CA 117 55 3527; CA 117 54 3528; CA 117 53 3529; CA 117 52 3530; CA 117 51 3531; CA 117 50 3532; CA 117 49 3533; CA 117 48 3534;
  CA 117 47 3535; CA 117 46 3536; CA 117 45 3537; CA 117 44 3538; CA 117 43 3539; CA 117 42 3540; CA 117 41 3541; CA 117 40 3542;
  CA 117 39 3543; CA 117 38 3544; CA 117 37 3545; CA 117 36 3546; CA 117 35 3547; CA 117 34 3548; CA 117 33 3549; CA 117 32 3550;
  CA 117 31 3551; CA 117 30 3552; CA 117 29 3553; CA 117 28 3554; CA 117 27 3555; CA 117 26 3556; CA 117 25 3557; CA 117 24 3558;
  CA 117 23 3559; CA 117 22 3560; CA 117 21 3561; CA 117 20 3562; CA 117 19 3563; CA 117 18 3564; CA 117 17 3565; CA 117 16 3566;
  CA 117 15 3567; CA 117 14 3568; CA 117 13 3569; CA 117 12 3570; CA 117 11 3571; CA 117 10 3572; CA 117 9 3573; CA 117 8 3574;
  CA 117 7 3575; CA 117 6 3576; CA 117 5 3577; CA 117 4 3578; CA 117 3 3579; CA 117 2 3580; CA 117 1 3581; CA 117 0 3582;
  CA 116 63 3455; CA 116 62 3456; CA 116 61 3457; CA 116 60 3458; CA 116 59 3459; CA 116 58 3460; CA 116 57 3461; CA 116 56 3462;
  CA 116 55 3463; CA 116 54 3464; CA 116 53 3465; CA 116 52 3466; CA 116 51 3467; CA 116 50 3468; CA 116 49 3469; CA 116 48 3470;
  CA 116 47 3471; CA 116 46 3472; CA 116 45 3473; CA 116 44 3474; CA 116 43 3475; CA 116 42 3476; CA 116 41 3477; CA 116 40 3478;
  CA 116 39 3479; CA 116 38 3480; CA 116 37 3481; CA 116 36 3482; CA 116 35 3483; CA 116 34 3484; CA 116 33 3485; CA 116 32 3486;
  CA 116 31 3487; CA 116 30 3488; CA 116 29 3489; CA 116 28 3490; CA 116 27 3491; CA 116 26 3492; CA 116 25 3493; CA 116 24 3494;
  CA 116 23 3495; CA 116 22 3496; CA 116 21 3497; CA 116 20 3498; CA 116 19 3499; CA 116 18 3500; CA 116 17 3501; CA 116 16 3502;
  CA 116 15 3503; CA 116 14 3504; CA 116 13 3505; CA 116 12 3506; CA 116 11 3507; CA 116 10 3508; CA 116 9 3509; CA 116 8 3510;
  CA 116 7 3511; CA 116 6 3512; CA 116 5 3513; CA 116 4 3514; CA 116 3 3515; CA 116 2 3516; CA 116 1 3517; CA 116 0 3518;
  CA 115 63 3391; CA 115 62 3392; CA 115 61 3393; CA 115 60 3394; CA 115 59 3395; CA 115 58 3396; CA 115 57 3397; CA 115 56 3398;
  CA 115 55 3399; CA 115 54 3400; CA 115 53 3401; CA 115 52 3402; CA 115 51 3403; CA 115 50 3404; CA 115 49 3405; CA 115 48 3406;
  CA 115 47 3407; CA 115 46 3408; CA 115 45 3409; CA 115 44 3410; CA 115 43 3411; CA 115 42 3412; CA 115 41 3413; CA 115 40 3414;
  CA 115 39 3415; CA 115 38 3416; CA 115 37 3417; CA 115 36 3418; CA 115 35 3419; CA 115 34 3420; CA 115 33 3421; CA 115 32 3422].
(** Lines 805-1204 of the file. *)
Definition mult2_64_2 : list cg := [
  CA 115 31 3423; CA 115 30 3424; CA 115 29 3425; CA 115 28 3426; CA 115 27 3427; CA 115 26 3428; CA 115 25 3429; CA 115 24 3430;
  CA 115 23 3431; CA 115 22 3432; CA 115 21 3433; CA 115 20 3434; CA 115 19 3435; CA 115 18 3436; CA 115 17 3437; CA 115 16 3438;
  CA 115 15 3439; CA 115 14 3440; CA 115 13 3441; CA 115 12 3442; CA 115 11 3443; CA 115 10 3444; CA 115 9 3445; CA 115 8 3446;
  CA 115 7 3447; CA 115 6 3448; CA 115 5 3449; CA 115 4 3450; CA 115 3 3451; CA 115 2 3452; CA 115 1 3453; CA 115 0 3454;
  CA 114 63 3327; CA 114 62 3328; CA 114 61 3329; CA 114 60 3330; CA 114 59 3331; CA 114 58 3332; CA 114 57 3333; CA 114 56 3334;
  CA 114 55 3335; CA 114 54 3336; CA 114 53 3337; CA 114 52 3338; CA 114 51 3339; CA 114 50 3340; CA 114 49 3341; CA 114 48 3342;
  CA 114 47 3343; CA 114 46 3344; CA 114 45 3345; CA 114 44 3346; CA 114 43 3347; CA 114 42 3348; CA 114 41 3349; CA 114 40 3350;
  CA 114 39 3351; CA 114 38 3352; CA 114 37 3353; CA 114 36 3354; CA 114 35 3355; CA 114 34 3356; CA 114 33 3357; CA 114 32 3358;
  CA 114 31 3359; CA 114 30 3360; CA 114 29 3361; CA 114 28 3362; CA 114 27 3363; CA 114 26 3364; CA 114 25 3365; CA 114 24 3366;
  CA 114 23 3367; CA 114 22 3368; CA 114 21 3369; CA 114 20 3370; CA 114 19 3371; CA 114 18 3372; CA 114 17 3373; CA 114 16 3374;
  CA 114 15 3375; CA 114 14 3376; CA 114 13 3377; CA 114 12 3378; CA 114 11 3379; CA 114 10 3380; CA 114 9 3381; CA 114 8 3382;
  CA 114 7 3383; CA 114 6 3384; CA 114 5 3385; CA 114 4 3386; CA 114 3 3387; CA 114 2 3388; CA 114 1 3389; CA 114 0 3390;
  CA 113 63 3263; CA 113 62 3264; CA 113 61 3265; CA 113 60 3266; CA 113 59 3267; CA 113 58 3268; CA 113 57 3269; CA 113 56 3270;
  CA 113 55 3271; CA 113 54 3272; CA 113 53 3273; CA 113 52 3274; CA 113 51 3275; CA 113 50 3276; CA 113 49 3277; CA 113 48 3278;
  CA 113 47 3279; CA 113 46 3280; CA 113 45 3281; CA 113 44 3282; CA 113 43 3283; CA 113 42 3284; CA 113 41 3285; CA 113 40 3286;
  CA 113 39 3287; CA 113 38 3288; CA 113 37 3289; CA 113 36 3290; CA 113 35 3291; CA 113 34 3292; CA 113 33 3293; CA 113 32 3294;
  CA 113 31 3295; CA 113 30 3296; CA 113 29 3297; CA 113 28 3298; CA 113 27 3299; CA 113 26 3300; CA 113 25 3301; CA 113 24 3302;
  CA 113 23 3303; CA 113 22 3304; CA 113 21 3305; CA 113 20 3306; CA 113 19 3307; CA 113 18 3308; CA 113 17 3309; CA 113 16 3310;
  CA 113 15 3311; CA 113 14 3312; CA 113 13 3313; CA 113 12 3314; CA 113 11 3315; CA 113 10 3316; CA 113 9 3317; CA 113 8 3318;
  CA 113 7 3319; CA 113 6 3320; CA 113 5 3321; CA 113 4 3322; CA 113 3 3323; CA 113 2 3324; CA 113 1 3325; CA 113 0 3326;
  CA 112 63 3199; CA 112 62 3200; CA 112 61 3201; CA 112 60 3202; CA 112 59 3203; CA 112 58 3204; CA 112 57 3205; CA 112 56 3206;
  CA 112 55 3207; CA 112 54 3208; CA 112 53 3209; CA 112 52 3210; CA 112 51 3211; CA 112 50 3212; CA 112 49 3213; CA 112 48 3214;
  CA 112 47 3215; CA 112 46 3216; CA 112 45 3217; CA 112 44 3218; CA 112 43 3219; CA 112 42 3220; CA 112 41 3221; CA 112 40 3222;
  CA 112 39 3223; CA 112 38 3224; CA 112 37 3225; CA 112 36 3226; CA 112 35 3227; CA 112 34 3228; CA 112 33 3229; CA 112 32 3230;
  CA 112 31 3231; CA 112 30 3232; CA 112 29 3233; CA 112 28 3234; CA 112 27 3235; CA 112 26 3236; CA 112 25 3237; CA 112 24 3238;
  CA 112 23 3239; CA 112 22 3240; CA 112 21 3241; CA 112 20 3242; CA 112 19 3243; CA 112 18 3244; CA 112 17 3245; CA 112 16 3246;
  CA 112 15 3247; CA 112 14 3248; CA 112 13 3249; CA 112 12 3250; CA 112 11 3251; CA 112 10 3252; CA 112 9 3253; CA 112 8 3254;
  CA 112 7 3255; CA 112 6 3256; CA 112 5 3257; CA 112 4 3258; CA 112 3 3259; CA 112 2 3260; CA 112 1 3261; CA 112 0 3262;
  CA 111 63 3135; CA 111 62 3136; CA 111 61 3137; CA 111 60 3138; CA 111 59 3139; CA 111 58 3140; CA 111 57 3141; CA 111 56 3142;
  CA 111 55 3143; CA 111 54 3144; CA 111 53 3145; CA 111 52 3146; CA 111 51 3147; CA 111 50 3148; CA 111 49 3149; CA 111 48 3150;
  CA 111 47 3151; CA 111 46 3152; CA 111 45 3153; CA 111 44 3154; CA 111 43 3155; CA 111 42 3156; CA 111 41 3157; CA 111 40 3158;
  CA 111 39 3159; CA 111 38 3160; CA 111 37 3161; CA 111 36 3162; CA 111 35 3163; CA 111 34 3164; CA 111 33 3165; CA 111 32 3166;
  CA 111 31 3167; CA 111 30 3168; CA 111 29 3169; CA 111 28 3170; CA 111 27 3171; CA 111 26 3172; CA 111 25 3173; CA 111 24 3174;
  CA 111 23 3175; CA 111 22 3176; CA 111 21 3177; CA 111 20 3178; CA 111 19 3179; CA 111 18 3180; CA 111 17 3181; CA 111 16 3182;
  CA 111 15 3183; CA 111 14 3184; CA 111 13 3185; CA 111 12 3186; CA 111 11 3187; CA 111 10 3188; CA 111 9 3189; CA 111 8 3190;
  CA 111 7 3191; CA 111 6 3192; CA 111 5 3193; CA 111 4 3194; CA 111 3 3195; CA 111 2 3196; CA 111 1 3197; CA 111 0 3198;
  CA 110 63 3071; CA 110 62 3072; CA 110 61 3073; CA 110 60 3074; CA 110 59 3075; CA 110 58 3076; CA 110 57 3077; CA 110 56 3078;
  CA 110 55 3079; CA 110 54 3080; CA 110 53 3081; CA 110 52 3082; CA 110 51 3083; CA 110 50 3084; CA 110 49 3085; CA 110 48 3086;
  CA 110 47 3087; CA 110 46 3088; CA 110 45 3089; CA 110 44 3090; CA 110 43 3091; CA 110 42 3092; CA 110 41 3093; CA 110 40 3094;
  CA 110 39 3095; CA 110 38 3096; CA 110 37 3097; CA 110 36 3098; CA 110 35 3099; CA 110 34 3100; CA 110 33 3101; CA 110 32 3102;
  CA 110 31 3103; CA 110 30 3104; CA 110 29 3105; CA 110 28 3106; CA 110 27 3107; CA 110 26 3108; CA 110 25 3109; CA 110 24 3110;
  CA 110 23 3111; CA 110 22 3112; CA 110 21 3113; CA 110 20 3114; CA 110 19 3115; CA 110 18 3116; CA 110 17 3117; CA 110 16 3118;
  CA 110 15 3119; CA 110 14 3120; CA 110 13 3121; CA 110 12 3122; CA 110 11 3123; CA 110 10 3124; CA 110 9 3125; CA 110 8 3126;
  CA 110 7 3127; CA 110 6 3128; CA 110 5 3129; CA 110 4 3130; CA 110 3 3131; CA 110 2 3132; CA 110 1 3133; CA 110 0 3134;
  CA 109 63 3007; CA 109 62 3008; CA 109 61 3009; CA 109 60 3010; CA 109 59 3011; CA 109 58 3012; CA 109 57 3013; CA 109 56 3014;
  CA 109 55 3015; CA 109 54 3016; CA 109 53 3017; CA 109 52 3018; CA 109 51 3019; CA 109 50 3020; CA 109 49 3021; CA 109 48 3022;
  CA 109 47 3023; CA 109 46 3024; CA 109 45 3025; CA 109 44 3026; CA 109 43 3027; CA 109 42 3028; CA 109 41 3029; CA 109 40 3030;
  CA 109 39 3031; CA 109 38 3032; CA 109 37 3033; CA 109 36 3034; CA 109 35 3035; CA 109 34 3036; CA 109 33 3037; CA 109 32 3038;
  CA 109 31 3039; CA 109 30 3040; CA 109 29 3041; CA 109 28 3042; CA 109 27 3043; CA 109 26 3044; CA 109 25 3045; CA 109 24 3046;
  CA 109 23 3047; CA 109 22 3048; CA 109 21 3049; CA 109 20 3050; CA 109 19 3051; CA 109 18 3052; CA 109 17 3053; CA 109 16 3054].
(** Lines 1205-1604 of the file. *)
Definition mult2_64_3 : list cg := [
  CA 109 15 3055; CA 109 14 3056; CA 109 13 3057; CA 109 12 3058; CA 109 11 3059; CA 109 10 3060; CA 109 9 3061; CA 109 8 3062;
  CA 109 7 3063; CA 109 6 3064; CA 109 5 3065; CA 109 4 3066; CA 109 3 3067; CA 109 2 3068; CA 109 1 3069; CA 109 0 3070;
  CA 108 63 2943; CA 108 62 2944; CA 108 61 2945; CA 108 60 2946; CA 108 59 2947; CA 108 58 2948; CA 108 57 2949; CA 108 56 2950;
  CA 108 55 2951; CA 108 54 2952; CA 108 53 2953; CA 108 52 2954; CA 108 51 2955; CA 108 50 2956; CA 108 49 2957; CA 108 48 2958;
  CA 108 47 2959; CA 108 46 2960; CA 108 45 2961; CA 108 44 2962; CA 108 43 2963; CA 108 42 2964; CA 108 41 2965; CA 108 40 2966;
  CA 108 39 2967; CA 108 38 2968; CA 108 37 2969; CA 108 36 2970; CA 108 35 2971; CA 108 34 2972; CA 108 33 2973; CA 108 32 2974;
  CA 108 31 2975; CA 108 30 2976; CA 108 29 2977; CA 108 28 2978; CA 108 27 2979; CA 108 26 2980; CA 108 25 2981; CA 108 24 2982;
  CA 108 23 2983; CA 108 22 2984; CA 108 21 2985; CA 108 20 2986; CA 108 19 2987; CA 108 18 2988; CA 108 17 2989; CA 108 16 2990;
  CA 108 15 2991; CA 108 14 2992; CA 108 13 2993; CA 108 12 2994; CA 108 11 2995; CA 108 10 2996; CA 108 9 2997; CA 108 8 2998;
  CA 108 7 2999; CA 108 6 3000; CA 108 5 3001; CA 108 4 3002; CA 108 3 3003; CA 108 2 3004; CA 108 1 3005; CA 108 0 3006;
  CA 107 63 2879; CA 107 62 2880; CA 107 61 2881; CA 107 60 2882; CA 107 59 2883; CA 107 58 2884; CA 107 57 2885; CA 107 56 2886;
  CA 107 55 2887; CA 107 54 2888; CA 107 53 2889; CA 107 52 2890; CA 107 51 2891; CA 107 50 2892; CA 107 49 2893; CA 107 48 2894;
  CA 107 47 2895; CA 107 46 2896; CA 107 45 2897; CA 107 44 2898; CA 107 43 2899; CA 107 42 2900; CA 107 41 2901; CA 107 40 2902;
  CA 107 39 2903; CA 107 38 2904; CA 107 37 2905; CA 107 36 2906; CA 107 35 2907; CA 107 34 2908; CA 107 33 2909; CA 107 32 2910;
  CA 107 31 2911; CA 107 30 2912; CA 107 29 2913; CA 107 28 2914; CA 107 27 2915; CA 107 26 2916; CA 107 25 2917; CA 107 24 2918;
  CA 107 23 2919; CA 107 22 2920; CA 107 21 2921; CA 107 20 2922; CA 107 19 2923; CA 107 18 2924; CA 107 17 2925; CA 107 16 2926;
  CA 107 15 2927; CA 107 14 2928; CA 107 13 2929; CA 107 12 2930; CA 107 11 2931; CA 107 10 2932; CA 107 9 2933; CA 107 8 2934;
  CA 107 7 2935; CA 107 6 2936; CA 107 5 2937; CA 107 4 2938; CA 107 3 2939; CA 107 2 2940; CA 107 1 2941; CA 107 0 2942;
  CA 106 63 2815; CA 106 62 2816; CA 106 61 2817; CA 106 60 2818; CA 106 59 2819; CA 106 58 2820; CA 106 57 2821; CA 106 56 2822;
  CA 106 55 2823; CA 106 54 2824; CA 106 53 2825; CA 106 52 2826; CA 106 51 2827; CA 106 50 2828; CA 106 49 2829; CA 106 48 2830;
  CA 106 47 2831; CA 106 46 2832; CA 106 45 2833; CA 106 44 2834; CA 106 43 2835; CA 106 42 2836; CA 106 41 2837; CA 106 40 2838;
  CA 106 39 2839; CA 106 38 2840; CA 106 37 2841; CA 106 36 2842; CA 106 35 2843; CA 106 34 2844; CA 106 33 2845; CA 106 32 2846;
  CA 106 31 2847; CA 106 30 2848; CA 106 29 2849; CA 106 28 2850; CA 106 27 2851; CA 106 26 2852; CA 106 25 2853; CA 106 24 2854;
  CA 106 23 2855; CA 106 22 2856; CA 106 21 2857; CA 106 20 2858; CA 106 19 2859; CA 106 18 2860; CA 106 17 2861; CA 106 16 2862;
  CA 106 15 2863; CA 106 14 2864; CA 106 13 2865; CA 106 12 2866; CA 106 11 2867; CA 106 10 2868; CA 106 9 2869; CA 106 8 2870;
  CA 106 7 2871; CA 106 6 2872; CA 106 5 2873; CA 106 4 2874; CA 106 3 2875; CA 106 2 2876; CA 106 1 2877; CA 106 0 2878;
  CA 105 63 2751; CA 105 62 2752; CA 105 61 2753; CA 105 60 2754; CA 105 59 2755; CA 105 58 2756; CA 105 57 2757; CA 105 56 2758;
  CA 105 55 2759; CA 105 54 2760; CA 105 53 2761; CA 105 52 2762; CA 105 51 2763; CA 105 50 2764; CA 105 49 2765; CA 105 48 2766;
  CA 105 47 2767; CA 105 46 2768; CA 105 45 2769; CA 105 44 2770; CA 105 43 2771; CA 105 42 2772; CA 105 41 2773; CA 105 40 2774;
  CA 105 39 2775; CA 105 38 2776; CA 105 37 2777; CA 105 36 2778; CA 105 35 2779; CA 105 34 2780; CA 105 33 2781; CA 105 32 2782;
  CA 105 31 2783; CA 105 30 2784; CA 105 29 2785; CA 105 28 2786; CA 105 27 2787; CA 105 26 2788; CA 105 25 2789; CA 105 24 2790;
  CA 105 23 2791; CA 105 22 2792; CA 105 21 2793; CA 105 20 2794; CA 105 19 2795; CA 105 18 2796; CA 105 17 2797; CA 105 16 2798;
  CA 105 15 2799; CA 105 14 2800; CA 105 13 2801; CA 105 12 2802; CA 105 11 2803; CA 105 10 2804; CA 105 9 2805; CA 105 8 2806;
  CA 105 7 2807; CA 105 6 2808; CA 105 5 2809; CA 105 4 2810; CA 105 3 2811; CA 105 2 2812; CA 105 1 2813; CA 105 0 2814;
  CA 104 63 2687; CA 104 62 2688; CA 104 61 2689; CA 104 60 2690; CA 104 59 2691; CA 104 58 2692; CA 104 57 2693; CA 104 56 2694;
  CA 104 55 2695; CA 104 54 2696; CA 104 53 2697; CA 104 52 2698; CA 104 51 2699; CA 104 50 2700; CA 104 49 2701; CA 104 48 2702;
  CA 104 47 2703; CA 104 46 2704; CA 104 45 2705; CA 104 44 2706; CA 104 43 2707; CA 104 42 2708; CA 104 41 2709; CA 104 40 2710;
  CA 104 39 2711; CA 104 38 2712; CA 104 37 2713; CA 104 36 2714; CA 104 35 2715; CA 104 34 2716; CA 104 33 2717; CA 104 32 2718;
  CA 104 31 2719; CA 104 30 2720; CA 104 29 2721; CA 104 28 2722; CA 104 27 2723; CA 104 26 2724; CA 104 25 2725; CA 104 24 2726;
  CA 104 23 2727; CA 104 22 2728; CA 104 21 2729; CA 104 20 2730; CA 104 19 2731; CA 104 18 2732; CA 104 17 2733; CA 104 16 2734;
  CA 104 15 2735; CA 104 14 2736; CA 104 13 2737; CA 104 12 2738; CA 104 11 2739; CA 104 10 2740; CA 104 9 2741; CA 104 8 2742;
  CA 104 7 2743; CA 104 6 2744; CA 104 5 2745; CA 104 4 2746; CA 104 3 2747; CA 104 2 2748; CA 104 1 2749; CA 104 0 2750;
  CA 103 63 2623; CA 103 62 2624; CA 103 61 2625; CA 103 60 2626; CA 103 59 2627; CA 103 58 2628; CA 103 57 2629; CA 103 56 2630;
  CA 103 55 2631; CA 103 54 2632; CA 103 53 2633; CA 103 52 2634; CA 103 51 2635; CA 103 50 2636; CA 103 49 2637; CA 103 48 2638;
  CA 103 47 2639; CA 103 46 2640; CA 103 45 2641; CA 103 44 2642; CA 103 43 2643; CA 103 42 2644; CA 103 41 2645; CA 103 40 2646;
  CA 103 39 2647; CA 103 38 2648; CA 103 37 2649; CA 103 36 2650; CA 103 35 2651; CA 103 34 2652; CA 103 33 2653; CA 103 32 2654;
  CA 103 31 2655; CA 103 30 2656; CA 103 29 2657; CA 103 28 2658; CA 103 27 2659; CA 103 26 2660; CA 103 25 2661; CA 103 24 2662;
  CA 103 23 2663; CA 103 22 2664; CA 103 21 2665; CA 103 20 2666; CA 103 19 2667; CA 103 18 2668; CA 103 17 2669; CA 103 16 2670;
  CA 103 15 2671; CA 103 14 2672; CA 103 13 2673; CA 103 12 2674; CA 103 11 2675; CA 103 10 2676; CA 103 9 2677; CA 103 8 2678;
  CA 103 7 2679; CA 103 6 2680; CA 103 5 2681; CA 103 4 2682; CA 103 3 2683; CA 103 2 2684; CA 103 1 2685; CA 103 0 2686].
(** Lines 1605-2004 of the file. *)
Definition mult2_64_4 : list cg := [
  CA 102 63 2559; CA 102 62 2560; CA 102 61 2561; CA 102 60 2562; CA 102 59 2563; CA 102 58 2564; CA 102 57 2565; CA 102 56 2566;
  CA 102 55 2567; CA 102 54 2568; CA 102 53 2569; CA 102 52 2570; CA 102 51 2571; CA 102 50 2572; CA 102 49 2573; CA 102 48 2574;
  CA 102 47 2575; CA 102 46 2576; CA 102 45 2577; CA 102 44 2578; CA 102 43 2579; CA 102 42 2580; CA 102 41 2581; CA 102 40 2582;
  CA 102 39 2583; CA 102 38 2584; CA 102 37 2585; CA 102 36 2586; CA 102 35 2587; CA 102 34 2588; CA 102 33 2589; CA 102 32 2590;
  CA 102 31 2591; CA 102 30 2592; CA 102 29 2593; CA 102 28 2594; CA 102 27 2595; CA 102 26 2596; CA 102 25 2597; CA 102 24 2598;
  CA 102 23 2599; CA 102 22 2600; CA 102 21 2601; CA 102 20 2602; CA 102 19 2603; CA 102 18 2604; CA 102 17 2605; CA 102 16 2606;
  CA 102 15 2607; CA 102 14 2608; CA 102 13 2609; CA 102 12 2610; CA 102 11 2611; CA 102 10 2612; CA 102 9 2613; CA 102 8 2614;
  CA 102 7 2615; CA 102 6 2616; CA 102 5 2617; CA 102 4 2618; CA 102 3 2619; CA 102 2 2620; CA 102 1 2621; CA 102 0 2622;
  CA 101 63 2495; CA 101 62 2496; CA 101 61 2497; CA 101 60 2498; CA 101 59 2499; CA 101 58 2500; CA 101 57 2501; CA 101 56 2502;
  CA 101 55 2503; CA 101 54 2504; CA 101 53 2505; CA 101 52 2506; CA 101 51 2507; CA 101 50 2508; CA 101 49 2509; CA 101 48 2510;
  CA 101 47 2511; CA 101 46 2512; CA 101 45 2513; CA 101 44 2514; CA 101 43 2515; CA 101 42 2516; CA 101 41 2517; CA 101 40 2518;
  CA 101 39 2519; CA 101 38 2520; CA 101 37 2521; CA 101 36 2522; CA 101 35 2523; CA 101 34 2524; CA 101 33 2525; CA 101 32 2526;
  CA 101 31 2527; CA 101 30 2528; CA 101 29 2529; CA 101 28 2530; CA 101 27 2531; CA 101 26 2532; CA 101 25 2533; CA 101 24 2534;
  CA 101 23 2535; CA 101 22 2536; CA 101 21 2537; CA 101 20 2538; CA 101 19 2539; CA 101 18 2540; CA 101 17 2541; CA 101 16 2542;
  CA 101 15 2543; CA 101 14 2544; CA 101 13 2545; CA 101 12 2546; CA 101 11 2547; CA 101 10 2548; CA 101 9 2549; CA 101 8 2550;
  CA 101 7 2551; CA 101 6 2552; CA 101 5 2553; CA 101 4 2554; CA 101 3 2555; CA 101 2 2556; CA 101 1 2557; CA 101 0 2558;
  CA 100 63 2431; CA 100 62 2432; CA 100 61 2433; CA 100 60 2434; CA 100 59 2435; CA 100 58 2436; CA 100 57 2437; CA 100 56 2438;
  CA 100 55 2439; CA 100 54 2440; CA 100 53 2441; CA 100 52 2442; CA 100 51 2443; CA 100 50 2444; CA 100 49 2445; CA 100 48 2446;
  CA 100 47 2447; CA 100 46 2448; CA 100 45 2449; CA 100 44 2450; CA 100 43 2451; CA 100 42 2452; CA 100 41 2453; CA 100 40 2454;
  CA 100 39 2455; CA 100 38 2456; CA 100 37 2457; CA 100 36 2458; CA 100 35 2459; CA 100 34 2460; CA 100 33 2461; CA 100 32 2462;
  CA 100 31 2463; CA 100 30 2464; CA 100 29 2465; CA 100 28 2466; CA 100 27 2467; CA 100 26 2468; CA 100 25 2469; CA 100 24 2470;
  CA 100 23 2471; CA 100 22 2472; CA 100 21 2473; CA 100 20 2474; CA 100 19 2475; CA 100 18 2476; CA 100 17 2477; CA 100 16 2478;
  CA 100 15 2479; CA 100 14 2480; CA 100 13 2481; CA 100 12 2482; CA 100 11 2483; CA 100 10 2484; CA 100 9 2485; CA 100 8 2486;
  CA 100 7 2487; CA 100 6 2488; CA 100 5 2489; CA 100 4 2490; CA 100 3 2491; CA 100 2 2492; CA 100 1 2493; CA 100 0 2494;
  CA 99 63 2367; CA 99 62 2368; CA 99 61 2369; CA 99 60 2370; CA 99 59 2371; CA 99 58 2372; CA 99 57 2373; CA 99 56 2374;
  CA 99 55 2375; CA 99 54 2376; CA 99 53 2377; CA 99 52 2378; CA 99 51 2379; CA 99 50 2380; CA 99 49 2381; CA 99 48 2382;
  CA 99 47 2383; CA 99 46 2384; CA 99 45 2385; CA 99 44 2386; CA 99 43 2387; CA 99 42 2388; CA 99 41 2389; CA 99 40 2390;
  CA 99 39 2391; CA 99 38 2392; CA 99 37 2393; CA 99 36 2394; CA 99 35 2395; CA 99 34 2396; CA 99 33 2397; CA 99 32 2398;
  CA 99 31 2399; CA 99 30 2400; CA 99 29 2401; CA 99 28 2402; CA 99 27 2403; CA 99 26 2404; CA 99 25 2405; CA 99 24 2406;
  CA 99 23 2407; CA 99 22 2408; CA 99 21 2409; CA 99 20 2410; CA 99 19 2411; CA 99 18 2412; CA 99 17 2413; CA 99 16 2414;
  CA 99 15 2415; CA 99 14 2416; CA 99 13 2417; CA 99 12 2418; CA 99 11 2419; CA 99 10 2420; CA 99 9 2421; CA 99 8 2422;
  CA 99 7 2423; CA 99 6 2424; CA 99 5 2425; CA 99 4 2426; CA 99 3 2427; CA 99 2 2428; CA 99 1 2429; CA 99 0 2430;
  CA 98 63 2303; CA 98 62 2304; CA 98 61 2305; CA 98 60 2306; CA 98 59 2307; CA 98 58 2308; CA 98 57 2309; CA 98 56 2310;
  CA 98 55 2311; CA 98 54 2312; CA 98 53 2313; CA 98 52 2314; CA 98 51 2315; CA 98 50 2316; CA 98 49 2317; CA 98 48 2318;
  CA 98 47 2319; CA 98 46 2320; CA 98 45 2321; CA 98 44 2322; CA 98 43 2323; CA 98 42 2324; CA 98 41 2325; CA 98 40 2326;
  CA 98 39 2327; CA 98 38 2328; CA 98 37 2329; CA 98 36 2330; CA 98 35 2331; CA 98 34 2332; CA 98 33 2333; CA 98 32 2334;
  CA 98 31 2335; CA 98 30 2336; CA 98 29 2337; CA 98 28 2338; CA 98 27 2339; CA 98 26 2340; CA 98 25 2341; CA 98 24 2342;
  CA 98 23 2343; CA 98 22 2344; CA 98 21 2345; CA 98 20 2346; CA 98 19 2347; CA 98 18 2348; CA 98 17 2349; CA 98 16 2350;
  CA 98 15 2351; CA 98 14 2352; CA 98 13 2353; CA 98 12 2354; CA 98 11 2355; CA 98 10 2356; CA 98 9 2357; CA 98 8 2358;
  CA 98 7 2359; CA 98 6 2360; CA 98 5 2361; CA 98 4 2362; CA 98 3 2363; CA 98 2 2364; CA 98 1 2365; CA 98 0 2366;
  CA 97 63 2239; CA 97 62 2240; CA 97 61 2241; CA 97 60 2242; CA 97 59 2243; CA 97 58 2244; CA 97 57 2245; CA 97 56 2246;
  CA 97 55 2247; CA 97 54 2248; CA 97 53 2249; CA 97 52 2250; CA 97 51 2251; CA 97 50 2252; CA 97 49 2253; CA 97 48 2254;
  CA 97 47 2255; CA 97 46 2256; CA 97 45 2257; CA 97 44 2258; CA 97 43 2259; CA 97 42 2260; CA 97 41 2261; CA 97 40 2262;
  CA 97 39 2263; CA 97 38 2264; CA 97 37 2265; CA 97 36 2266; CA 97 35 2267; CA 97 34 2268; CA 97 33 2269; CA 97 32 2270;
  CA 97 31 2271; CA 97 30 2272; CA 97 29 2273; CA 97 28 2274; CA 97 27 2275; CA 97 26 2276; CA 97 25 2277; CA 97 24 2278;
  CA 97 23 2279; CA 97 22 2280; CA 97 21 2281; CA 97 20 2282; CA 97 19 2283; CA 97 18 2284; CA 97 17 2285; CA 97 16 2286;
  CA 97 15 2287; CA 97 14 2288; CA 97 13 2289; CA 97 12 2290; CA 97 11 2291; CA 97 10 2292; CA 97 9 2293; CA 97 8 2294;
  CA 97 7 2295; CA 97 6 2296; CA 97 5 2297; CA 97 4 2298; CA 97 3 2299; CA 97 2 2300; CA 97 1 2301; CA 97 0 2302;
  CA 96 63 2175; CA 96 62 2176; CA 96 61 2177; CA 96 60 2178; CA 96 59 2179; CA 96 58 2180; CA 96 57 2181; CA 96 56 2182;
  CA 96 55 2183; CA 96 54 2184; CA 96 53 2185; CA 96 52 2186; CA 96 51 2187; CA 96 50 2188; CA 96 49 2189; CA 96 48 2190].
(** Lines 2005-2404 of the file. *)
Definition mult2_64_5 : list cg := [
  CA 96 47 2191; CA 96 46 2192; CA 96 45 2193; CA 96 44 2194; CA 96 43 2195; CA 96 42 2196; CA 96 41 2197; CA 96 40 2198;
  CA 96 39 2199; CA 96 38 2200; CA 96 37 2201; CA 96 36 2202; CA 96 35 2203; CA 96 34 2204; CA 96 33 2205; CA 96 32 2206;
  CA 96 31 2207; CA 96 30 2208; CA 96 29 2209; CA 96 28 2210; CA 96 27 2211; CA 96 26 2212; CA 96 25 2213; CA 96 24 2214;
  CA 96 23 2215; CA 96 22 2216; CA 96 21 2217; CA 96 20 2218; CA 96 19 2219; CA 96 18 2220; CA 96 17 2221; CA 96 16 2222;
  CA 96 15 2223; CA 96 14 2224; CA 96 13 2225; CA 96 12 2226; CA 96 11 2227; CA 96 10 2228; CA 96 9 2229; CA 96 8 2230;
  CA 96 7 2231; CA 96 6 2232; CA 96 5 2233; CA 96 4 2234; CA 96 3 2235; CA 96 2 2236; CA 96 1 2237; CA 96 0 2238;
  CA 95 63 2111; CA 95 62 2112; CA 95 61 2113; CA 95 60 2114; CA 95 59 2115; CA 95 58 2116; CA 95 57 2117; CA 95 56 2118;
  CA 95 55 2119; CA 95 54 2120; CA 95 53 2121; CA 95 52 2122; CA 95 51 2123; CA 95 50 2124; CA 95 49 2125; CA 95 48 2126;
  CA 95 47 2127; CA 95 46 2128; CA 95 45 2129; CA 95 44 2130; CA 95 43 2131; CA 95 42 2132; CA 95 41 2133; CA 95 40 2134;
  CA 95 39 2135; CA 95 38 2136; CA 95 37 2137; CA 95 36 2138; CA 95 35 2139; CA 95 34 2140; CA 95 33 2141; CA 95 32 2142;
  CA 95 31 2143; CA 95 30 2144; CA 95 29 2145; CA 95 28 2146; CA 95 27 2147; CA 95 26 2148; CA 95 25 2149; CA 95 24 2150;
  CA 95 23 2151; CA 95 22 2152; CA 95 21 2153; CA 95 20 2154; CA 95 19 2155; CA 95 18 2156; CA 95 17 2157; CA 95 16 2158;
  CA 95 15 2159; CA 95 14 2160; CA 95 13 2161; CA 95 12 2162; CA 95 11 2163; CA 95 10 2164; CA 95 9 2165; CA 95 8 2166;
  CA 95 7 2167; CA 95 6 2168; CA 95 5 2169; CA 95 4 2170; CA 95 3 2171; CA 95 2 2172; CA 95 1 2173; CA 95 0 2174;
  CA 94 63 2047; CA 94 62 2048; CA 94 61 2049; CA 94 60 2050; CA 94 59 2051; CA 94 58 2052; CA 94 57 2053; CA 94 56 2054;
  CA 94 55 2055; CA 94 54 2056; CA 94 53 2057; CA 94 52 2058; CA 94 51 2059; CA 94 50 2060; CA 94 49 2061; CA 94 48 2062;
  CA 94 47 2063; CA 94 46 2064; CA 94 45 2065; CA 94 44 2066; CA 94 43 2067; CA 94 42 2068; CA 94 41 2069; CA 94 40 2070;
  CA 94 39 2071; CA 94 38 2072; CA 94 37 2073; CA 94 36 2074; CA 94 35 2075; CA 94 34 2076; CA 94 33 2077; CA 94 32 2078;
  CA 94 31 2079; CA 94 30 2080; CA 94 29 2081; CA 94 28 2082; CA 94 27 2083; CA 94 26 2084; CA 94 25 2085; CA 94 24 2086;
  CA 94 23 2087; CA 94 22 2088; CA 94 21 2089; CA 94 20 2090; CA 94 19 2091; CA 94 18 2092; CA 94 17 2093; CA 94 16 2094;
  CA 94 15 2095; CA 94 14 2096; CA 94 13 2097; CA 94 12 2098; CA 94 11 2099; CA 94 10 2100; CA 94 9 2101; CA 94 8 2102;
  CA 94 7 2103; CA 94 6 2104; CA 94 5 2105; CA 94 4 2106; CA 94 3 2107; CA 94 2 2108; CA 94 1 2109; CA 94 0 2110;
  CA 93 63 1983; CA 93 62 1984; CA 93 61 1985; CA 93 60 1986; CA 93 59 1987; CA 93 58 1988; CA 93 57 1989; CA 93 56 1990;
  CA 93 55 1991; CA 93 54 1992; CA 93 53 1993; CA 93 52 1994; CA 93 51 1995; CA 93 50 1996; CA 93 49 1997; CA 93 48 1998;
  CA 93 47 1999; CA 93 46 2000; CA 93 45 2001; CA 93 44 2002; CA 93 43 2003; CA 93 42 2004; CA 93 41 2005; CA 93 40 2006;
  CA 93 39 2007; CA 93 38 2008; CA 93 37 2009; CA 93 36 2010; CA 93 35 2011; CA 93 34 2012; CA 93 33 2013; CA 93 32 2014;
  CA 93 31 2015; CA 93 30 2016; CA 93 29 2017; CA 93 28 2018; CA 93 27 2019; CA 93 26 2020; CA 93 25 2021; CA 93 24 2022;
  CA 93 23 2023; CA 93 22 2024; CA 93 21 2025; CA 93 20 2026; CA 93 19 2027; CA 93 18 2028; CA 93 17 2029; CA 93 16 2030;
  CA 93 15 2031; CA 93 14 2032; CA 93 13 2033; CA 93 12 2034; CA 93 11 2035; CA 93 10 2036; CA 93 9 2037; CA 93 8 2038;
  CA 93 7 2039; CA 93 6 2040; CA 93 5 2041; CA 93 4 2042; CA 93 3 2043; CA 93 2 2044; CA 93 1 2045; CA 93 0 2046;
  CA 92 63 1919; CA 92 62 1920; CA 92 61 1921; CA 92 60 1922; CA 92 59 1923; CA 92 58 1924; CA 92 57 1925; CA 92 56 1926;
  CA 92 55 1927; CA 92 54 1928; CA 92 53 1929; CA 92 52 1930; CA 92 51 1931; CA 92 50 1932; CA 92 49 1933; CA 92 48 1934;
  CA 92 47 1935; CA 92 46 1936; CA 92 45 1937; CA 92 44 1938; CA 92 43 1939; CA 92 42 1940; CA 92 41 1941; CA 92 40 1942;
  CA 92 39 1943; CA 92 38 1944; CA 92 37 1945; CA 92 36 1946; CA 92 35 1947; CA 92 34 1948; CA 92 33 1949; CA 92 32 1950;
  CA 92 31 1951; CA 92 30 1952; CA 92 29 1953; CA 92 28 1954; CA 92 27 1955; CA 92 26 1956; CA 92 25 1957; CA 92 24 1958;
  CA 92 23 1959; CA 92 22 1960; CA 92 21 1961; CA 92 20 1962; CA 92 19 1963; CA 92 18 1964; CA 92 17 1965; CA 92 16 1966;
  CA 92 15 1967; CA 92 14 1968; CA 92 13 1969; CA 92 12 1970; CA 92 11 1971; CA 92 10 1972; CA 92 9 1973; CA 92 8 1974;
  CA 92 7 1975; CA 92 6 1976; CA 92 5 1977; CA 92 4 1978; CA 92 3 1979; CA 92 2 1980; CA 92 1 1981; CA 92 0 1982;
  CA 91 63 1855; CA 91 62 1856; CA 91 61 1857; CA 91 60 1858; CA 91 59 1859; CA 91 58 1860; CA 91 57 1861; CA 91 56 1862;
  CA 91 55 1863; CA 91 54 1864; CA 91 53 1865; CA 91 52 1866; CA 91 51 1867; CA 91 50 1868; CA 91 49 1869; CA 91 48 1870;
  CA 91 47 1871; CA 91 46 1872; CA 91 45 1873; CA 91 44 1874; CA 91 43 1875; CA 91 42 1876; CA 91 41 1877; CA 91 40 1878;
  CA 91 39 1879; CA 91 38 1880; CA 91 37 1881; CA 91 36 1882; CA 91 35 1883; CA 91 34 1884; CA 91 33 1885; CA 91 32 1886;
  CA 91 31 1887; CA 91 30 1888; CA 91 29 1889; CA 91 28 1890; CA 91 27 1891; CA 91 26 1892; CA 91 25 1893; CA 91 24 1894;
  CA 91 23 1895; CA 91 22 1896; CA 91 21 1897; CA 91 20 1898; CA 91 19 1899; CA 91 18 1900; CA 91 17 1901; CA 91 16 1902;
  CA 91 15 1903; CA 91 14 1904; CA 91 13 1905; CA 91 12 1906; CA 91 11 1907; CA 91 10 1908; CA 91 9 1909; CA 91 8 1910;
  CA 91 7 1911; CA 91 6 1912; CA 91 5 1913; CA 91 4 1914; CA 91 3 1915; CA 91 2 1916; CA 91 1 1917; CA 91 0 1918;
  CA 90 63 1791; CA 90 62 1792; CA 90 61 1793; CA 90 60 1794; CA 90 59 1795; CA 90 58 1796; CA 90 57 1797; CA 90 56 1798;
  CA 90 55 1799; CA 90 54 1800; CA 90 53 1801; CA 90 52 1802; CA 90 51 1803; CA 90 50 1804; CA 90 49 1805; CA 90 48 1806;
  CA 90 47 1807; CA 90 46 1808; CA 90 45 1809; CA 90 44 1810; CA 90 43 1811; CA 90 42 1812; CA 90 41 1813; CA 90 40 1814;
  CA 90 39 1815; CA 90 38 1816; CA 90 37 1817; CA 90 36 1818; CA 90 35 1819; CA 90 34 1820; CA 90 33 1821; CA 90 32 1822].
(** Lines 2405-2804 of the file. *)
Definition mult2_64_6 : list cg := [
  CA 90 31 1823; CA 90 30 1824; CA 90 29 1825; CA 90 28 1826; CA 90 27 1827; CA 90 26 1828; CA 90 25 1829; CA 90 24 1830;
  CA 90 23 1831; CA 90 22 1832; CA 90 21 1833; CA 90 20 1834; CA 90 19 1835; CA 90 18 1836; CA 90 17 1837; CA 90 16 1838;
  CA 90 15 1839; CA 90 14 1840; CA 90 13 1841; CA 90 12 1842; CA 90 11 1843; CA 90 10 1844; CA 90 9 1845; CA 90 8 1846;
  CA 90 7 1847; CA 90 6 1848; CA 90 5 1849; CA 90 4 1850; CA 90 3 1851; CA 90 2 1852; CA 90 1 1853; CA 90 0 1854;
  CA 89 63 1727; CA 89 62 1728; CA 89 61 1729; CA 89 60 1730; CA 89 59 1731; CA 89 58 1732; CA 89 57 1733; CA 89 56 1734;
  CA 89 55 1735; CA 89 54 1736; CA 89 53 1737; CA 89 52 1738; CA 89 51 1739; CA 89 50 1740; CA 89 49 1741; CA 89 48 1742;
  CA 89 47 1743; CA 89 46 1744; CA 89 45 1745; CA 89 44 1746; CA 89 43 1747; CA 89 42 1748; CA 89 41 1749; CA 89 40 1750;
  CA 89 39 1751; CA 89 38 1752; CA 89 37 1753; CA 89 36 1754; CA 89 35 1755; CA 89 34 1756; CA 89 33 1757; CA 89 32 1758;
  CA 89 31 1759; CA 89 30 1760; CA 89 29 1761; CA 89 28 1762; CA 89 27 1763; CA 89 26 1764; CA 89 25 1765; CA 89 24 1766;
  CA 89 23 1767; CA 89 22 1768; CA 89 21 1769; CA 89 20 1770; CA 89 19 1771; CA 89 18 1772; CA 89 17 1773; CA 89 16 1774;
  CA 89 15 1775; CA 89 14 1776; CA 89 13 1777; CA 89 12 1778; CA 89 11 1779; CA 89 10 1780; CA 89 9 1781; CA 89 8 1782;
  CA 89 7 1783; CA 89 6 1784; CA 89 5 1785; CA 89 4 1786; CA 89 3 1787; CA 89 2 1788; CA 89 1 1789; CA 89 0 1790;
  CA 88 63 1663; CA 88 62 1664; CA 88 61 1665; CA 88 60 1666; CA 88 59 1667; CA 88 58 1668; CA 88 57 1669; CA 88 56 1670;
  CA 88 55 1671; CA 88 54 1672; CA 88 53 1673; CA 88 52 1674; CA 88 51 1675; CA 88 50 1676; CA 88 49 1677; CA 88 48 1678;
  CA 88 47 1679; CA 88 46 1680; CA 88 45 1681; CA 88 44 1682; CA 88 43 1683; CA 88 42 1684; CA 88 41 1685; CA 88 40 1686;
  CA 88 39 1687; CA 88 38 1688; CA 88 37 1689; CA 88 36 1690; CA 88 35 1691; CA 88 34 1692; CA 88 33 1693; CA 88 32 1694;
  CA 88 31 1695; CA 88 30 1696; CA 88 29 1697; CA 88 28 1698; CA 88 27 1699; CA 88 26 1700; CA 88 25 1701; CA 88 24 1702;
  CA 88 23 1703; CA 88 22 1704; CA 88 21 1705; CA 88 20 1706; CA 88 19 1707; CA 88 18 1708; CA 88 17 1709; CA 88 16 1710;
  CA 88 15 1711; CA 88 14 1712; CA 88 13 1713; CA 88 12 1714; CA 88 11 1715; CA 88 10 1716; CA 88 9 1717; CA 88 8 1718;
  CA 88 7 1719; CA 88 6 1720; CA 88 5 1721; CA 88 4 1722; CA 88 3 1723; CA 88 2 1724; CA 88 1 1725; CA 88 0 1726;
  CA 87 63 1599; CA 87 62 1600; CA 87 61 1601; CA 87 60 1602; CA 87 59 1603; CA 87 58 1604; CA 87 57 1605; CA 87 56 1606;
  CA 87 55 1607; CA 87 54 1608; CA 87 53 1609; CA 87 52 1610; CA 87 51 1611; CA 87 50 1612; CA 87 49 1613; CA 87 48 1614;
  CA 87 47 1615; CA 87 46 1616; CA 87 45 1617; CA 87 44 1618; CA 87 43 1619; CA 87 42 1620; CA 87 41 1621; CA 87 40 1622;
  CA 87 39 1623; CA 87 38 1624; CA 87 37 1625; CA 87 36 1626; CA 87 35 1627; CA 87 34 1628; CA 87 33 1629; CA 87 32 1630;
  CA 87 31 1631; CA 87 30 1632; CA 87 29 1633; CA 87 28 1634; CA 87 27 1635; CA 87 26 1636; CA 87 25 1637; CA 87 24 1638;
  CA 87 23 1639; CA 87 22 1640; CA 87 21 1641; CA 87 20 1642; CA 87 19 1643; CA 87 18 1644; CA 87 17 1645; CA 87 16 1646;
  CA 87 15 1647; CA 87 14 1648; CA 87 13 1649; CA 87 12 1650; CA 87 11 1651; CA 87 10 1652; CA 87 9 1653; CA 87 8 1654;
  CA 87 7 1655; CA 87 6 1656; CA 87 5 1657; CA 87 4 1658; CA 87 3 1659; CA 87 2 1660; CA 87 1 1661; CA 87 0 1662;
  CA 86 63 1535; CA 86 62 1536; CA 86 61 1537; CA 86 60 1538; CA 86 59 1539; CA 86 58 1540; CA 86 57 1541; CA 86 56 1542;
  CA 86 55 1543; CA 86 54 1544; CA 86 53 1545; CA 86 52 1546; CA 86 51 1547; CA 86 50 1548; CA 86 49 1549; CA 86 48 1550;
  CA 86 47 1551; CA 86 46 1552; CA 86 45 1553; CA 86 44 1554; CA 86 43 1555; CA 86 42 1556; CA 86 41 1557; CA 86 40 1558;
  CA 86 39 1559; CA 86 38 1560; CA 86 37 1561; CA 86 36 1562; CA 86 35 1563; CA 86 34 1564; CA 86 33 1565; CA 86 32 1566;
  CA 86 31 1567; CA 86 30 1568; CA 86 29 1569; CA 86 28 1570; CA 86 27 1571; CA 86 26 1572; CA 86 25 1573; CA 86 24 1574;
  CA 86 23 1575; CA 86 22 1576; CA 86 21 1577; CA 86 20 1578; CA 86 19 1579; CA 86 18 1580; CA 86 17 1581; CA 86 16 1582;
  CA 86 15 1583; CA 86 14 1584; CA 86 13 1585; CA 86 12 1586; CA 86 11 1587; CA 86 10 1588; CA 86 9 1589; CA 86 8 1590;
  CA 86 7 1591; CA 86 6 1592; CA 86 5 1593; CA 86 4 1594; CA 86 3 1595; CA 86 2 1596; CA 86 1 1597; CA 86 0 1598;
  CA 85 63 1471; CA 85 62 1472; CA 85 61 1473; CA 85 60 1474; CA 85 59 1475; CA 85 58 1476; CA 85 57 1477; CA 85 56 1478;
  CA 85 55 1479; CA 85 54 1480; CA 85 53 1481; CA 85 52 1482; CA 85 51 1483; CA 85 50 1484; CA 85 49 1485; CA 85 48 1486;
  CA 85 47 1487; CA 85 46 1488; CA 85 45 1489; CA 85 44 1490; CA 85 43 1491; CA 85 42 1492; CA 85 41 1493; CA 85 40 1494;
  CA 85 39 1495; CA 85 38 1496; CA 85 37 1497; CA 85 36 1498; CA 85 35 1499; CA 85 34 1500; CA 85 33 1501; CA 85 32 1502;
  CA 85 31 1503; CA 85 30 1504; CA 85 29 1505; CA 85 28 1506; CA 85 27 1507; CA 85 26 1508; CA 85 25 1509; CA 85 24 1510;
  CA 85 23 1511; CA 85 22 1512; CA 85 21 1513; CA 85 20 1514; CA 85 19 1515; CA 85 18 1516; CA 85 17 1517; CA 85 16 1518;
  CA 85 15 1519; CA 85 14 1520; CA 85 13 1521; CA 85 12 1522; CA 85 11 1523; CA 85 10 1524; CA 85 9 1525; CA 85 8 1526;
  CA 85 7 1527; CA 85 6 1528; CA 85 5 1529; CA 85 4 1530; CA 85 3 1531; CA 85 2 1532; CA 85 1 1533; CA 85 0 1534;
  CA 84 63 1407; CA 84 62 1408; CA 84 61 1409; CA 84 60 1410; CA 84 59 1411; CA 84 58 1412; CA 84 57 1413; CA 84 56 1414;
  CA 84 55 1415; CA 84 54 1416; CA 84 53 1417; CA 84 52 1418; CA 84 51 1419; CA 84 50 1420; CA 84 49 1421; CA 84 48 1422;
  CA 84 47 1423; CA 84 46 1424; CA 84 45 1425; CA 84 44 1426; CA 84 43 1427; CA 84 42 1428; CA 84 41 1429; CA 84 40 1430;
  CA 84 39 1431; CA 84 38 1432; CA 84 37 1433; CA 84 36 1434; CA 84 35 1435; CA 84 34 1436; CA 84 33 1437; CA 84 32 1438;
  CA 84 31 1439; CA 84 30 1440; CA 84 29 1441; CA 84 28 1442; CA 84 27 1443; CA 84 26 1444; CA 84 25 1445; CA 84 24 1446;
  CA 84 23 1447; CA 84 22 1448; CA 84 21 1449; CA 84 20 1450; CA 84 19 1451; CA 84 18 1452; CA 84 17 1453; CA 84 16 1454].
(** Lines 2805-3204 of the file. *)
Definition mult2_64_7 : list cg := [
  CA 84 15 1455; CA 84 14 1456; CA 84 13 1457; CA 84 12 1458; CA 84 11 1459; CA 84 10 1460; CA 84 9 1461; CA 84 8 1462;
  CA 84 7 1463; CA 84 6 1464; CA 84 5 1465; CA 84 4 1466; CA 84 3 1467; CA 84 2 1468; CA 84 1 1469; CA 84 0 1470;
  CA 83 63 1343; CA 83 62 1344; CA 83 61 1345; CA 83 60 1346; CA 83 59 1347; CA 83 58 1348; CA 83 57 1349; CA 83 56 1350;
  CA 83 55 1351; CA 83 54 1352; CA 83 53 1353; CA 83 52 1354; CA 83 51 1355; CA 83 50 1356; CA 83 49 1357; CA 83 48 1358;
  CA 83 47 1359; CA 83 46 1360; CA 83 45 1361; CA 83 44 1362; CA 83 43 1363; CA 83 42 1364; CA 83 41 1365; CA 83 40 1366;
  CA 83 39 1367; CA 83 38 1368; CA 83 37 1369; CA 83 36 1370; CA 83 35 1371; CA 83 34 1372; CA 83 33 1373; CA 83 32 1374;
  CA 83 31 1375; CA 83 30 1376; CA 83 29 1377; CA 83 28 1378; CA 83 27 1379; CA 83 26 1380; CA 83 25 1381; CA 83 24 1382;
  CA 83 23 1383; CA 83 22 1384; CA 83 21 1385; CA 83 20 1386; CA 83 19 1387; CA 83 18 1388; CA 83 17 1389; CA 83 16 1390;
  CA 83 15 1391; CA 83 14 1392; CA 83 13 1393; CA 83 12 1394; CA 83 11 1395; CA 83 10 1396; CA 83 9 1397; CA 83 8 1398;
  CA 83 7 1399; CA 83 6 1400; CA 83 5 1401; CA 83 4 1402; CA 83 3 1403; CA 83 2 1404; CA 83 1 1405; CA 83 0 1406;
  CA 82 63 1279; CA 82 62 1280; CA 82 61 1281; CA 82 60 1282; CA 82 59 1283; CA 82 58 1284; CA 82 57 1285; CA 82 56 1286;
  CA 82 55 1287; CA 82 54 1288; CA 82 53 1289; CA 82 52 1290; CA 82 51 1291; CA 82 50 1292; CA 82 49 1293; CA 82 48 1294;
  CA 82 47 1295; CA 82 46 1296; CA 82 45 1297; CA 82 44 1298; CA 82 43 1299; CA 82 42 1300; CA 82 41 1301; CA 82 40 1302;
  CA 82 39 1303; CA 82 38 1304; CA 82 37 1305; CA 82 36 1306; CA 82 35 1307; CA 82 34 1308; CA 82 33 1309; CA 82 32 1310;
  CA 82 31 1311; CA 82 30 1312; CA 82 29 1313; CA 82 28 1314; CA 82 27 1315; CA 82 26 1316; CA 82 25 1317; CA 82 24 1318;
  CA 82 23 1319; CA 82 22 1320; CA 82 21 1321; CA 82 20 1322; CA 82 19 1323; CA 82 18 1324; CA 82 17 1325; CA 82 16 1326;
  CA 82 15 1327; CA 82 14 1328; CA 82 13 1329; CA 82 12 1330; CA 82 11 1331; CA 82 10 1332; CA 82 9 1333; CA 82 8 1334;
  CA 82 7 1335; CA 82 6 1336; CA 82 5 1337; CA 82 4 1338; CA 82 3 1339; CA 82 2 1340; CA 82 1 1341; CA 82 0 1342;
  CA 81 63 1215; CA 81 62 1216; CA 81 61 1217; CA 81 60 1218; CA 81 59 1219; CA 81 58 1220; CA 81 57 1221; CA 81 56 1222;
  CA 81 55 1223; CA 81 54 1224; CA 81 53 1225; CA 81 52 1226; CA 81 51 1227; CA 81 50 1228; CA 81 49 1229; CA 81 48 1230;
  CA 81 47 1231; CA 81 46 1232; CA 81 45 1233; CA 81 44 1234; CA 81 43 1235; CA 81 42 1236; CA 81 41 1237; CA 81 40 1238;
  CA 81 39 1239; CA 81 38 1240; CA 81 37 1241; CA 81 36 1242; CA 81 35 1243; CA 81 34 1244; CA 81 33 1245; CA 81 32 1246;
  CA 81 31 1247; CA 81 30 1248; CA 81 29 1249; CA 81 28 1250; CA 81 27 1251; CA 81 26 1252; CA 81 25 1253; CA 81 24 1254;
  CA 81 23 1255; CA 81 22 1256; CA 81 21 1257; CA 81 20 1258; CA 81 19 1259; CA 81 18 1260; CA 81 17 1261; CA 81 16 1262;
  CA 81 15 1263; CA 81 14 1264; CA 81 13 1265; CA 81 12 1266; CA 81 11 1267; CA 81 10 1268; CA 81 9 1269; CA 81 8 1270;
  CA 81 7 1271; CA 81 6 1272; CA 81 5 1273; CA 81 4 1274; CA 81 3 1275; CA 81 2 1276; CA 81 1 1277; CA 81 0 1278;
  CA 80 63 1151; CA 80 62 1152; CA 80 61 1153; CA 80 60 1154; CA 80 59 1155; CA 80 58 1156; CA 80 57 1157; CA 80 56 1158;
  CA 80 55 1159; CA 80 54 1160; CA 80 53 1161; CA 80 52 1162; CA 80 51 1163; CA 80 50 1164; CA 80 49 1165; CA 80 48 1166;
  CA 80 47 1167; CA 80 46 1168; CA 80 45 1169; CA 80 44 1170; CA 80 43 1171; CA 80 42 1172; CA 80 41 1173; CA 80 40 1174;
  CA 80 39 1175; CA 80 38 1176; CA 80 37 1177; CA 80 36 1178; CA 80 35 1179; CA 80 34 1180; CA 80 33 1181; CA 80 32 1182;
  CA 80 31 1183; CA 80 30 1184; CA 80 29 1185; CA 80 28 1186; CA 80 27 1187; CA 80 26 1188; CA 80 25 1189; CA 80 24 1190;
  CA 80 23 1191; CA 80 22 1192; CA 80 21 1193; CA 80 20 1194; CA 80 19 1195; CA 80 18 1196; CA 80 17 1197; CA 80 16 1198;
  CA 80 15 1199; CA 80 14 1200; CA 80 13 1201; CA 80 12 1202; CA 80 11 1203; CA 80 10 1204; CA 80 9 1205; CA 80 8 1206;
  CA 80 7 1207; CA 80 6 1208; CA 80 5 1209; CA 80 4 1210; CA 80 3 1211; CA 80 2 1212; CA 80 1 1213; CA 80 0 1214;
  CA 79 63 1087; CA 79 62 1088; CA 79 61 1089; CA 79 60 1090; CA 79 59 1091; CA 79 58 1092; CA 79 57 1093; CA 79 56 1094;
  CA 79 55 1095; CA 79 54 1096; CA 79 53 1097; CA 79 52 1098; CA 79 51 1099; CA 79 50 1100; CA 79 49 1101; CA 79 48 1102;
  CA 79 47 1103; CA 79 46 1104; CA 79 45 1105; CA 79 44 1106; CA 79 43 1107; CA 79 42 1108; CA 79 41 1109; CA 79 40 1110;
  CA 79 39 1111; CA 79 38 1112; CA 79 37 1113; CA 79 36 1114; CA 79 35 1115; CA 79 34 1116; CA 79 33 1117; CA 79 32 1118;
  CA 79 31 1119; CA 79 30 1120; CA 79 29 1121; CA 79 28 1122; CA 79 27 1123; CA 79 26 1124; CA 79 25 1125; CA 79 24 1126;
  CA 79 23 1127; CA 79 22 1128; CA 79 21 1129; CA 79 20 1130; CA 79 19 1131; CA 79 18 1132; CA 79 17 1133; CA 79 16 1134;
  CA 79 15 1135; CA 79 14 1136; CA 79 13 1137; CA 79 12 1138; CA 79 11 1139; CA 79 10 1140; CA 79 9 1141; CA 79 8 1142;
  CA 79 7 1143; CA 79 6 1144; CA 79 5 1145; CA 79 4 1146; CA 79 3 1147; CA 79 2 1148; CA 79 1 1149; CA 79 0 1150;
  CA 78 63 1023; CA 78 62 1024; CA 78 61 1025; CA 78 60 1026; CA 78 59 1027; CA 78 58 1028; CA 78 57 1029; CA 78 56 1030;
  CA 78 55 1031; CA 78 54 1032; CA 78 53 1033; CA 78 52 1034; CA 78 51 1035; CA 78 50 1036; CA 78 49 1037; CA 78 48 1038;
  CA 78 47 1039; CA 78 46 1040; CA 78 45 1041; CA 78 44 1042; CA 78 43 1043; CA 78 42 1044; CA 78 41 1045; CA 78 40 1046;
  CA 78 39 1047; CA 78 38 1048; CA 78 37 1049; CA 78 36 1050; CA 78 35 1051; CA 78 34 1052; CA 78 33 1053; CA 78 32 1054;
  CA 78 31 1055; CA 78 30 1056; CA 78 29 1057; CA 78 28 1058; CA 78 27 1059; CA 78 26 1060; CA 78 25 1061; CA 78 24 1062;
  CA 78 23 1063; CA 78 22 1064; CA 78 21 1065; CA 78 20 1066; CA 78 19 1067; CA 78 18 1068; CA 78 17 1069; CA 78 16 1070;
  CA 78 15 1071; CA 78 14 1072; CA 78 13 1073; CA 78 12 1074; CA 78 11 1075; CA 78 10 1076; CA 78 9 1077; CA 78 8 1078;
  CA 78 7 1079; CA 78 6 1080; CA 78 5 1081; CA 78 4 1082; CA 78 3 1083; CA 78 2 1084; CA 78 1 1085; CA 78 0 1086].
(** Lines 3205-3604 of the file. *)
Definition mult2_64_8 : list cg := [
  CA 77 63 959; CA 77 62 960; CA 77 61 961; CA 77 60 962; CA 77 59 963; CA 77 58 964; CA 77 57 965; CA 77 56 966;
  CA 77 55 967; CA 77 54 968; CA 77 53 969; CA 77 52 970; CA 77 51 971; CA 77 50 972; CA 77 49 973; CA 77 48 974;
  CA 77 47 975; CA 77 46 976; CA 77 45 977; CA 77 44 978; CA 77 43 979; CA 77 42 980; CA 77 41 981; CA 77 40 982;
  CA 77 39 983; CA 77 38 984; CA 77 37 985; CA 77 36 986; CA 77 35 987; CA 77 34 988; CA 77 33 989; CA 77 32 990;
  CA 77 31 991; CA 77 30 992; CA 77 29 993; CA 77 28 994; CA 77 27 995; CA 77 26 996; CA 77 25 997; CA 77 24 998;
  CA 77 23 999; CA 77 22 1000; CA 77 21 1001; CA 77 20 1002; CA 77 19 1003; CA 77 18 1004; CA 77 17 1005; CA 77 16 1006;
  CA 77 15 1007; CA 77 14 1008; CA 77 13 1009; CA 77 12 1010; CA 77 11 1011; CA 77 10 1012; CA 77 9 1013; CA 77 8 1014;
  CA 77 7 1015; CA 77 6 1016; CA 77 5 1017; CA 77 4 1018; CA 77 3 1019; CA 77 2 1020; CA 77 1 1021; CA 77 0 1022;
  CA 76 63 895; CA 76 62 896; CA 76 61 897; CA 76 60 898; CA 76 59 899; CA 76 58 900; CA 76 57 901; CA 76 56 902;
  CA 76 55 903; CA 76 54 904; CA 76 53 905; CA 76 52 906; CA 76 51 907; CA 76 50 908; CA 76 49 909; CA 76 48 910;
  CA 76 47 911; CA 76 46 912; CA 76 45 913; CA 76 44 914; CA 76 43 915; CA 76 42 916; CA 76 41 917; CA 76 40 918;
  CA 76 39 919; CA 76 38 920; CA 76 37 921; CA 76 36 922; CA 76 35 923; CA 76 34 924; CA 76 33 925; CA 76 32 926;
  CA 76 31 927; CA 76 30 928; CA 76 29 929; CA 76 28 930; CA 76 27 931; CA 76 26 932; CA 76 25 933; CA 76 24 934;
  CA 76 23 935; CA 76 22 936; CA 76 21 937; CA 76 20 938; CA 76 19 939; CA 76 18 940; CA 76 17 941; CA 76 16 942;
  CA 76 15 943; CA 76 14 944; CA 76 13 945; CA 76 12 946; CA 76 11 947; CA 76 10 948; CA 76 9 949; CA 76 8 950;
  CA 76 7 951; CA 76 6 952; CA 76 5 953; CA 76 4 954; CA 76 3 955; CA 76 2 956; CA 76 1 957; CA 76 0 958;
  CA 75 63 831; CA 75 62 832; CA 75 61 833; CA 75 60 834; CA 75 59 835; CA 75 58 836; CA 75 57 837; CA 75 56 838;
  CA 75 55 839; CA 75 54 840; CA 75 53 841; CA 75 52 842; CA 75 51 843; CA 75 50 844; CA 75 49 845; CA 75 48 846;
  CA 75 47 847; CA 75 46 848; CA 75 45 849; CA 75 44 850; CA 75 43 851; CA 75 42 852; CA 75 41 853; CA 75 40 854;
  CA 75 39 855; CA 75 38 856; CA 75 37 857; CA 75 36 858; CA 75 35 859; CA 75 34 860; CA 75 33 861; CA 75 32 862;
  CA 75 31 863; CA 75 30 864; CA 75 29 865; CA 75 28 866; CA 75 27 867; CA 75 26 868; CA 75 25 869; CA 75 24 870;
  CA 75 23 871; CA 75 22 872; CA 75 21 873; CA 75 20 874; CA 75 19 875; CA 75 18 876; CA 75 17 877; CA 75 16 878;
  CA 75 15 879; CA 75 14 880; CA 75 13 881; CA 75 12 882; CA 75 11 883; CA 75 10 884; CA 75 9 885; CA 75 8 886;
  CA 75 7 887; CA 75 6 888; CA 75 5 889; CA 75 4 890; CA 75 3 891; CA 75 2 892; CA 75 1 893; CA 75 0 894;
  CA 74 63 767; CA 74 62 768; CA 74 61 769; CA 74 60 770; CA 74 59 771; CA 74 58 772; CA 74 57 773; CA 74 56 774;
  CA 74 55 775; CA 74 54 776; CA 74 53 777; CA 74 52 778; CA 74 51 779; CA 74 50 780; CA 74 49 781; CA 74 48 782;
  CA 74 47 783; CA 74 46 784; CA 74 45 785; CA 74 44 786; CA 74 43 787; CA 74 42 788; CA 74 41 789; CA 74 40 790;
  CA 74 39 791; CA 74 38 792; CA 74 37 793; CA 74 36 794; CA 74 35 795; CA 74 34 796; CA 74 33 797; CA 74 32 798;
  CA 74 31 799; CA 74 30 800; CA 74 29 801; CA 74 28 802; CA 74 27 803; CA 74 26 804; CA 74 25 805; CA 74 24 806;
  CA 74 23 807; CA 74 22 808; CA 74 21 809; CA 74 20 810; CA 74 19 811; CA 74 18 812; CA 74 17 813; CA 74 16 814;
  CA 74 15 815; CA 74 14 816; CA 74 13 817; CA 74 12 818; CA 74 11 819; CA 74 10 820; CA 74 9 821; CA 74 8 822;
  CA 74 7 823; CA 74 6 824; CA 74 5 825; CA 74 4 826; CA 74 3 827; CA 74 2 828; CA 74 1 829; CA 74 0 830;
  CA 73 63 703; CA 73 62 704; CA 73 61 705; CA 73 60 706; CA 73 59 707; CA 73 58 708; CA 73 57 709; CA 73 56 710;
  CA 73 55 711; CA 73 54 712; CA 73 53 713; CA 73 52 714; CA 73 51 715; CA 73 50 716; CA 73 49 717; CA 73 48 718;
  CA 73 47 719; CA 73 46 720; CA 73 45 721; CA 73 44 722; CA 73 43 723; CA 73 42 724; CA 73 41 725; CA 73 40 726;
  CA 73 39 727; CA 73 38 728; CA 73 37 729; CA 73 36 730; CA 73 35 731; CA 73 34 732; CA 73 33 733; CA 73 32 734;
  CA 73 31 735; CA 73 30 736; CA 73 29 737; CA 73 28 738; CA 73 27 739; CA 73 26 740; CA 73 25 741; CA 73 24 742;
  CA 73 23 743; CA 73 22 744; CA 73 21 745; CA 73 20 746; CA 73 19 747; CA 73 18 748; CA 73 17 749; CA 73 16 750;
  CA 73 15 751; CA 73 14 752; CA 73 13 753; CA 73 12 754; CA 73 11 755; CA 73 10 756; CA 73 9 757; CA 73 8 758;
  CA 73 7 759; CA 73 6 760; CA 73 5 761; CA 73 4 762; CA 73 3 763; CA 73 2 764; CA 73 1 765; CA 73 0 766;
  CA 72 63 639; CA 72 62 640; CA 72 61 641; CA 72 60 642; CA 72 59 643; CA 72 58 644; CA 72 57 645; CA 72 56 646;
  CA 72 55 647; CA 72 54 648; CA 72 53 649; CA 72 52 650; CA 72 51 651; CA 72 50 652; CA 72 49 653; CA 72 48 654;
  CA 72 47 655; CA 72 46 656; CA 72 45 657; CA 72 44 658; CA 72 43 659; CA 72 42 660; CA 72 41 661; CA 72 40 662;
  CA 72 39 663; CA 72 38 664; CA 72 37 665; CA 72 36 666; CA 72 35 667; CA 72 34 668; CA 72 33 669; CA 72 32 670;
  CA 72 31 671; CA 72 30 672; CA 72 29 673; CA 72 28 674; CA 72 27 675; CA 72 26 676; CA 72 25 677; CA 72 24 678;
  CA 72 23 679; CA 72 22 680; CA 72 21 681; CA 72 20 682; CA 72 19 683; CA 72 18 684; CA 72 17 685; CA 72 16 686;
  CA 72 15 687; CA 72 14 688; CA 72 13 689; CA 72 12 690; CA 72 11 691; CA 72 10 692; CA 72 9 693; CA 72 8 694;
  CA 72 7 695; CA 72 6 696; CA 72 5 697; CA 72 4 698; CA 72 3 699; CA 72 2 700; CA 72 1 701; CA 72 0 702;
  CA 71 63 575; CA 71 62 576; CA 71 61 577; CA 71 60 578; CA 71 59 579; CA 71 58 580; CA 71 57 581; CA 71 56 582;
  CA 71 55 583; CA 71 54 584; CA 71 53 585; CA 71 52 586; CA 71 51 587; CA 71 50 588; CA 71 49 589; CA 71 48 590].
(** Lines 3605-4004 of the file. *)
Definition mult2_64_9 : list cg := [
  CA 71 47 591; CA 71 46 592; CA 71 45 593; CA 71 44 594; CA 71 43 595; CA 71 42 596; CA 71 41 597; CA 71 40 598;
  CA 71 39 599; CA 71 38 600; CA 71 37 601; CA 71 36 602; CA 71 35 603; CA 71 34 604; CA 71 33 605; CA 71 32 606;
  CA 71 31 607; CA 71 30 608; CA 71 29 609; CA 71 28 610; CA 71 27 611; CA 71 26 612; CA 71 25 613; CA 71 24 614;
  CA 71 23 615; CA 71 22 616; CA 71 21 617; CA 71 20 618; CA 71 19 619; CA 71 18 620; CA 71 17 621; CA 71 16 622;
  CA 71 15 623; CA 71 14 624; CA 71 13 625; CA 71 12 626; CA 71 11 627; CA 71 10 628; CA 71 9 629; CA 71 8 630;
  CA 71 7 631; CA 71 6 632; CA 71 5 633; CA 71 4 634; CA 71 3 635; CA 71 2 636; CA 71 1 637; CA 71 0 638;
  CA 70 63 511; CA 70 62 512; CA 70 61 513; CA 70 60 514; CA 70 59 515; CA 70 58 516; CA 70 57 517; CA 70 56 518;
  CA 70 55 519; CA 70 54 520; CA 70 53 521; CA 70 52 522; CA 70 51 523; CA 70 50 524; CA 70 49 525; CA 70 48 526;
  CA 70 47 527; CA 70 46 528; CA 70 45 529; CA 70 44 530; CA 70 43 531; CA 70 42 532; CA 70 41 533; CA 70 40 534;
  CA 70 39 535; CA 70 38 536; CA 70 37 537; CA 70 36 538; CA 70 35 539; CA 70 34 540; CA 70 33 541; CA 70 32 542;
  CA 70 31 543; CA 70 30 544; CA 70 29 545; CA 70 28 546; CA 70 27 547; CA 70 26 548; CA 70 25 549; CA 70 24 550;
  CA 70 23 551; CA 70 22 552; CA 70 21 553; CA 70 20 554; CA 70 19 555; CA 70 18 556; CA 70 17 557; CA 70 16 558;
  CA 70 15 559; CA 70 14 560; CA 70 13 561; CA 70 12 562; CA 70 11 563; CA 70 10 564; CA 70 9 565; CA 70 8 566;
  CA 70 7 567; CA 70 6 568; CA 70 5 569; CA 70 4 570; CA 70 3 571; CA 70 2 572; CA 70 1 573; CA 70 0 574;
  CA 69 63 447; CA 69 62 448; CA 69 61 449; CA 69 60 450; CA 69 59 451; CA 69 58 452; CA 69 57 453; CA 69 56 454;
  CA 69 55 455; CA 69 54 456; CA 69 53 457; CA 69 52 458; CA 69 51 459; CA 69 50 460; CA 69 49 461; CA 69 48 462;
  CA 69 47 463; CA 69 46 464; CA 69 45 465; CA 69 44 466; CA 69 43 467; CA 69 42 468; CA 69 41 469; CA 69 40 470;
  CA 69 39 471; CA 69 38 472; CA 69 37 473; CA 69 36 474; CA 69 35 475; CA 69 34 476; CA 69 33 477; CA 69 32 478;
  CA 69 31 479; CA 69 30 480; CA 69 29 481; CA 69 28 482; CA 69 27 483; CA 69 26 484; CA 69 25 485; CA 69 24 486;
  CA 69 23 487; CA 69 22 488; CA 69 21 489; CA 69 20 490; CA 69 19 491; CA 69 18 492; CA 69 17 493; CA 69 16 494;
  CA 69 15 495; CA 69 14 496; CA 69 13 497; CA 69 12 498; CA 69 11 499; CA 69 10 500; CA 69 9 501; CA 69 8 502;
  CA 69 7 503; CA 69 6 504; CA 69 5 505; CA 69 4 506; CA 69 3 507; CA 69 2 508; CA 69 1 509; CA 69 0 510;
  CA 68 63 383; CA 68 62 384; CA 68 61 385; CA 68 60 386; CA 68 59 387; CA 68 58 388; CA 68 57 389; CA 68 56 390;
  CA 68 55 391; CA 68 54 392; CA 68 53 393; CA 68 52 394; CA 68 51 395; CA 68 50 396; CA 68 49 397; CA 68 48 398;
  CA 68 47 399; CA 68 46 400; CA 68 45 401; CA 68 44 402; CA 68 43 403; CA 68 42 404; CA 68 41 405; CA 68 40 406;
  CA 68 39 407; CA 68 38 408; CA 68 37 409; CA 68 36 410; CA 68 35 411; CA 68 34 412; CA 68 33 413; CA 68 32 414;
  CA 68 31 415; CA 68 30 416; CA 68 29 417; CA 68 28 418; CA 68 27 419; CA 68 26 420; CA 68 25 421; CA 68 24 422;
  CA 68 23 423; CA 68 22 424; CA 68 21 425; CA 68 20 426; CA 68 19 427; CA 68 18 428; CA 68 17 429; CA 68 16 430;
  CA 68 15 431; CA 68 14 432; CA 68 13 433; CA 68 12 434; CA 68 11 435; CA 68 10 436; CA 68 9 437; CA 68 8 438;
  CA 68 7 439; CA 68 6 440; CA 68 5 441; CA 68 4 442; CA 68 3 443; CA 68 2 444; CA 68 1 445; CA 68 0 446;
  CA 67 63 319; CA 67 62 320; CA 67 61 321; CA 67 60 322; CA 67 59 323; CA 67 58 324; CA 67 57 325; CA 67 56 326;
  CA 67 55 327; CA 67 54 328; CA 67 53 329; CA 67 52 330; CA 67 51 331; CA 67 50 332; CA 67 49 333; CA 67 48 334;
  CA 67 47 335; CA 67 46 336; CA 67 45 337; CA 67 44 338; CA 67 43 339; CA 67 42 340; CA 67 41 341; CA 67 40 342;
  CA 67 39 343; CA 67 38 344; CA 67 37 345; CA 67 36 346; CA 67 35 347; CA 67 34 348; CA 67 33 349; CA 67 32 350;
  CA 67 31 351; CA 67 30 352; CA 67 29 353; CA 67 28 354; CA 67 27 355; CA 67 26 356; CA 67 25 357; CA 67 24 358;
  CA 67 23 359; CA 67 22 360; CA 67 21 361; CA 67 20 362; CA 67 19 363; CA 67 18 364; CA 67 17 365; CA 67 16 366;
  CA 67 15 367; CA 67 14 368; CA 67 13 369; CA 67 12 370; CA 67 11 371; CA 67 10 372; CA 67 9 373; CA 67 8 374;
  CA 67 7 375; CA 67 6 376; CA 67 5 377; CA 67 4 378; CA 67 3 379; CA 67 2 380; CA 67 1 381; CA 67 0 382;
  CA 66 63 255; CA 66 62 256; CA 66 61 257; CA 66 60 258; CA 66 59 259; CA 66 58 260; CA 66 57 261; CA 66 56 262;
  CA 66 55 263; CA 66 54 264; CA 66 53 265; CA 66 52 266; CA 66 51 267; CA 66 50 268; CA 66 49 269; CA 66 48 270;
  CA 66 47 271; CA 66 46 272; CA 66 45 273; CA 66 44 274; CA 66 43 275; CA 66 42 276; CA 66 41 277; CA 66 40 278;
  CA 66 39 279; CA 66 38 280; CA 66 37 281; CA 66 36 282; CA 66 35 283; CA 66 34 284; CA 66 33 285; CA 66 32 286;
  CA 66 31 287; CA 66 30 288; CA 66 29 289; CA 66 28 290; CA 66 27 291; CA 66 26 292; CA 66 25 293; CA 66 24 294;
  CA 66 23 295; CA 66 22 296; CA 66 21 297; CA 66 20 298; CA 66 19 299; CA 66 18 300; CA 66 17 301; CA 66 16 302;
  CA 66 15 303; CA 66 14 304; CA 66 13 305; CA 66 12 306; CA 66 11 307; CA 66 10 308; CA 66 9 309; CA 66 8 310;
  CA 66 7 311; CA 66 6 312; CA 66 5 313; CA 66 4 314; CA 66 3 315; CA 66 2 316; CA 66 1 317; CA 66 0 318;
  CA 65 63 191; CA 65 62 192; CA 65 61 193; CA 65 60 194; CA 65 59 195; CA 65 58 196; CA 65 57 197; CA 65 56 198;
  CA 65 55 199; CA 65 54 200; CA 65 53 201; CA 65 52 202; CA 65 51 203; CA 65 50 204; CA 65 49 205; CA 65 48 206;
  CA 65 47 207; CA 65 46 208; CA 65 45 209; CA 65 44 210; CA 65 43 211; CA 65 42 212; CA 65 41 213; CA 65 40 214;
  CA 65 39 215; CA 65 38 216; CA 65 37 217; CA 65 36 218; CA 65 35 219; CA 65 34 220; CA 65 33 221; CA 65 32 222].
(** Lines 4005-4404 of the file. *)
Definition mult2_64_10 : list cg := [
  CA 65 31 223; CA 65 30 224; CA 65 29 225; CA 65 28 226; CA 65 27 227; CA 65 26 228; CA 65 25 229; CA 65 24 230;
  CA 65 23 231; CA 65 22 232; CA 65 21 233; CA 65 20 234; CA 65 19 235; CA 65 18 236; CA 65 17 237; CA 65 16 238;
  CA 65 15 239; CA 65 14 240; CA 65 13 241; CA 65 12 242; CA 65 11 243; CA 65 10 244; CA 65 9 245; CA 65 8 246;
  CA 65 7 247; CA 65 6 248; CA 65 5 249; CA 65 4 250; CA 65 3 251; CA 65 2 252; CA 65 1 253; CA 65 0 254;
  CA 64 63 128; CX 192 128 27791; CA 64 62 129; CX 193 129 27795; CA 64 61 130; CX 194 130 27799; CA 64 60 131; CX 195 131 27803;
  CA 64 59 132; CX 196 132 27807; CA 64 58 133; CX 197 133 27811; CA 64 57 134; CX 198 134 27815; CA 64 56 135; CX 199 135 27819;
  CA 64 55 136; CX 200 136 27823; CA 64 54 137; CX 201 137 27827; CA 64 53 138; CX 202 138 27831; CA 64 52 139; CX 203 139 27835;
  CA 64 51 140; CX 204 140 27839; CA 64 50 141; CX 205 141 27843; CA 64 49 142; CX 206 142 27847; CA 64 48 143; CX 207 143 27851;
  CA 64 47 144; CX 208 144 27855; CA 64 46 145; CX 209 145 27859; CA 64 45 146; CX 210 146 27863; CA 64 44 147; CX 211 147 27867;
  CA 64 43 148; CX 212 148 27871; CA 64 42 149; CX 213 149 27875; CA 64 41 150; CX 214 150 27879; CA 64 40 151; CX 215 151 27883;
  CA 64 39 152; CX 216 152 27887; CA 64 38 153; CX 217 153 27891; CA 64 37 154; CX 218 154 27895; CA 64 36 155; CX 219 155 27899;
  CA 64 35 156; CX 220 156 27903; CA 64 34 157; CX 221 157 27907; CA 64 33 158; CX 222 158 27911; CA 64 32 159; CX 223 159 27915;
  CA 64 31 160; CX 224 160 27919; CA 64 30 161; CX 225 161 27923; CA 64 29 162; CX 226 162 27927; CA 64 28 163; CX 227 163 27931;
  CA 64 27 164; CX 228 164 27935; CA 64 26 165; CX 229 165 27939; CA 64 25 166; CX 230 166 27943; CA 64 24 167; CX 231 167 27947;
  CA 64 23 168; CX 232 168 27951; CA 64 22 169; CX 233 169 27955; CA 64 21 170; CX 234 170 27959; CA 64 20 171; CX 235 171 27963;
  CA 64 19 172; CX 236 172 27967; CA 64 18 173; CX 237 173 27971; CA 64 17 174; CX 238 174 27975; CA 64 16 175; CX 239 175 27979;
  CA 64 15 176; CX 240 176 27983; CA 64 14 177; CX 241 177 27987; CA 64 13 178; CX 242 178 27991; CA 64 12 179; CX 243 179 27995;
  CA 64 11 180; CX 244 180 27999; CA 64 10 181; CX 245 181 28003; CA 64 9 182; CX 246 182 28007; CA 64 8 183; CX 247 183 28011;
  CA 64 7 184; CX 248 184 28015; CA 64 6 185; CX 249 185 28019; CA 64 5 186; CX 250 186 28023; CA 64 4 187; CX 251 187 28027;
  CA 64 3 188; CX 252 188 28031; CA 64 2 189; CX 253 189 12163; CA 64 1 190; CX 254 190 28097; CA 254 190 4286; CX 12163 4286 4797;
  CX 318 4797 28098; CA 318 4797 4350; CX 253 4286 12162; CX 189 4286 12161; CA 12162 12161 12160; CX 12160 4286 4285; CX 28031 4285 4796; CX 252 4285 28030;
  CX 188 4285 28029; CA 28030 28029 28028; CX 28028 4285 4284; CX 28027 4284 4795; CX 251 4284 28026; CX 187 4284 28025; CA 28026 28025 28024; CX 28024 4284 4283;
  CX 28023 4283 4794; CX 250 4283 28022; CX 186 4283 28021; CA 28022 28021 28020; CX 28020 4283 4282; CX 28019 4282 4793; CX 249 4282 28018; CX 185 4282 28017;
  CA 28018 28017 28016; CX 28016 4282 4281; CX 28015 4281 4792; CX 248 4281 28014; CX 184 4281 28013; CA 28014 28013 28012; CX 28012 4281 4280; CX 28011 4280 4791;
  CX 247 4280 28010; CX 183 4280 28009; CA 28010 28009 28008; CX 28008 4280 4279; CX 28007 4279 4790; CX 246 4279 28006; CX 182 4279 28005; CA 28006 28005 28004;
  CX 28004 4279 4278; CX 28003 4278 4789; CX 245 4278 28002; CX 181 4278 28001; CA 28002 28001 28000; CX 28000 4278 4277; CX 27999 4277 4788; CX 244 4277 27998;
  CX 180 4277 27997; CA 27998 27997 27996; CX 27996 4277 4276; CX 27995 4276 4787; CX 243 4276 27994; CX 179 4276 27993; CA 27994 27993 27992; CX 27992 4276 4275;
  CX 27991 4275 4786; CX 242 4275 27990; CX 178 4275 27989; CA 27990 27989 27988; CX 27988 4275 4274; CX 27987 4274 4785; CX 241 4274 27986; CX 177 4274 27985;
  CA 27986 27985 27984; CX 27984 4274 4273; CX 27983 4273 4784; CX 240 4273 27982; CX 176 4273 27981; CA 27982 27981 27980; CX 27980 4273 4272; CX 27979 4272 4783;
  CX 239 4272 27978; CX 175 4272 27977; CA 27978 27977 27976; CX 27976 4272 4271; CX 27975 4271 4782; CX 238 4271 27974; CX 174 4271 27973; CA 27974 27973 27972;
  CX 27972 4271 4270; CX 27971 4270 4781; CX 237 4270 27970; CX 173 4270 27969; CA 27970 27969 27968; CX 27968 4270 4269; CX 27967 4269 4780; CX 236 4269 27966;
  CX 172 4269 27965; CA 27966 27965 27964; CX 27964 4269 4268; CX 27963 4268 4779; CX 235 4268 27962; CX 171 4268 27961; CA 27962 27961 27960; CX 27960 4268 4267;
  CX 27959 4267 4778; CX 234 4267 27958; CX 170 4267 27957; CA 27958 27957 27956; CX 27956 4267 4266; CX 27955 4266 4777; CX 233 4266 27954; CX 169 4266 27953;
  CA 27954 27953 27952; CX 27952 4266 4265; CX 27951 4265 4776; CX 232 4265 27950; CX 168 4265 27949; CA 27950 27949 27948; CX 27948 4265 4264; CX 27947 4264 4775;
  CX 231 4264 27946; CX 167 4264 27945; CA 27946 27945 27944; CX 27944 4264 4263; CX 27943 4263 4774; CX 230 4263 27942; CX 166 4263 27941; CA 27942 27941 27940;
  CX 27940 4263 4262; CX 27939 4262 4773; CX 229 4262 27938; CX 165 4262 27937; CA 27938 27937 27936; CX 27936 4262 4261; CX 27935 4261 4772; CX 228 4261 27934;
  CX 164 4261 27933; CA 27934 27933 27932; CX 27932 4261 4260; CX 27931 4260 4771; CX 227 4260 27930; CX 163 4260 27929; CA 27930 27929 27928; CX 27928 4260 4259;
  CX 27927 4259 4770; CX 226 4259 27926; CX 162 4259 27925; CA 27926 27925 27924; CX 27924 4259 4258; CX 27923 4258 4769; CX 225 4258 27922; CX 161 4258 27921;
  CA 27922 27921 27920; CX 27920 4258 4257; CX 27919 4257 4768; CX 224 4257 27918; CX 160 4257 27917; CA 27918 27917 27916; CX 27916 4257 4256; CX 27915 4256 4767;
  CX 223 4256 27914; CX 159 4256 27913; CA 27914 27913 27912; CX 27912 4256 4255; CX 27911 4255 4766; CX 222 4255 27910; CX 158 4255 27909; CA 27910 27909 27908;
  CX 27908 4255 4254; CX 27907 4254 4765; CX 221 4254 27906; CX 157 4254 27905; CA 27906 27905 27904; CX 27904 4254 4253; CX 27903 4253 4764; CX 220 4253 27902;
  CX 156 4253 27901; CA 27902 27901 27900; CX 27900 4253 4252; CX 27899 4252 4763; CX 219 4252 27898; CX 155 4252 27897; CA 27898 27897 27896; CX 27896 4252 4251;
  CX 27895 4251 4762; CX 218 4251 27894; CX 154 4251 27893; CA 27894 27893 27892; CX 27892 4251 4250; CX 27891 4250 4761; CX 217 4250 27890; CX 153 4250 27889;
  CA 27890 27889 27888; CX 27888 4250 4249; CX 27887 4249 4760; CX 216 4249 27886; CX 152 4249 27885; CA 27886 27885 27884; CX 27884 4249 4248; CX 27883 4248 4759;
  CX 215 4248 27882; CX 151 4248 27881; CA 27882 27881 27880; CX 27880 4248 4247; CX 27879 4247 4758; CX 214 4247 27878; CX 150 4247 27877; CA 27878 27877 27876;
  CX 27876 4247 4246; CX 27875 4246 4757; CX 213 4246 27874; CX 149 4246 27873; CA 27874 27873 27872; CX 27872 4246 4245; CX 27871 4245 4756; CX 212 4245 27870;
  CX 148 4245 27869; CA 27870 27869 27868; CX 27868 4245 4244; CX 27867 4244 4755; CX 211 4244 27866; CX 147 4244 27865; CA 27866 27865 27864; CX 27864 4244 4243;
  CX 27863 4243 4754; CX 210 4243 27862; CX 146 4243 27861; CA 27862 27861 27860; CX 27860 4243 4242; CX 27859 4242 4753; CX 209 4242 27858; CX 145 4242 27857;
  CA 27858 27857 27856; CX 27856 4242 4241; CX 27855 4241 4752; CX 208 4241 27854; CX 144 4241 27853; CA 27854 27853 27852; CX 27852 4241 4240; CX 27851 4240 4751;
  CX 207 4240 27850; CX 143 4240 27849; CA 27850 27849 27848; CX 27848 4240 4239; CX 27847 4239 4750; CX 206 4239 27846; CX 142 4239 27845; CA 27846 27845 27844].
(** Lines 4405-4804 of the file. *)
Definition mult2_64_11 : list cg := [
  CX 27844 4239 4238; CX 27843 4238 4749; CX 205 4238 27842; CX 141 4238 27841; CA 27842 27841 27840; CX 27840 4238 4237; CX 27839 4237 4748; CX 204 4237 27838;
  CX 140 4237 27837; CA 27838 27837 27836; CX 27836 4237 4236; CX 27835 4236 4747; CX 203 4236 27834; CX 139 4236 27833; CA 27834 27833 27832; CX 27832 4236 4235;
  CX 27831 4235 4746; CX 202 4235 27830; CX 138 4235 27829; CA 27830 27829 27828; CX 27828 4235 4234; CX 27827 4234 4745; CX 201 4234 27826; CX 137 4234 27825;
  CA 27826 27825 27824; CX 27824 4234 4233; CX 27823 4233 4744; CX 200 4233 27822; CX 136 4233 27821; CA 27822 27821 27820; CX 27820 4233 4232; CX 27819 4232 4743;
  CX 199 4232 27818; CX 135 4232 27817; CA 27818 27817 27816; CX 27816 4232 4231; CX 27815 4231 4742; CX 198 4231 27814; CX 134 4231 27813; CA 27814 27813 27812;
  CX 27812 4231 4230; CX 27811 4230 4741; CX 197 4230 27810; CX 133 4230 27809; CA 27810 27809 27808; CX 27808 4230 4229; CX 27807 4229 4740; CX 196 4229 27806;
  CX 132 4229 27805; CA 27806 27805 27804; CX 27804 4229 4228; CX 27803 4228 4739; CX 195 4228 27802; CX 131 4228 27801; CA 27802 27801 27800; CX 27800 4228 4227;
  CX 27799 4227 4738; CX 194 4227 27798; CX 130 4227 27797; CA 27798 27797 27796; CX 27796 4227 4226; CX 27795 4226 4737; CX 193 4226 27794; CX 129 4226 27793;
  CA 27794 27793 27792; CX 27792 4226 4225; CX 27791 4225 4736; CX 192 4225 27790; CX 128 4225 27789; CA 27790 27789 27788; CX 27788 4225 4224; CX 191 4224 4735;
  CA 191 4224 4223; CX 317 4796 27787; CX 27787 4350 4860; CX 382 4860 28099; CA 382 4860 4414; CX 317 4350 27786; CX 4796 4350 27785; CA 27786 27785 27784;
  CX 27784 4350 4349; CX 316 4795 27783; CX 27783 4349 4859; CX 316 4349 27782; CX 4795 4349 27781; CA 27782 27781 27780; CX 27780 4349 4348; CX 315 4794 27779;
  CX 27779 4348 4858; CX 315 4348 27778; CX 4794 4348 27777; CA 27778 27777 27776; CX 27776 4348 4347; CX 314 4793 27775; CX 27775 4347 4857; CX 314 4347 27774;
  CX 4793 4347 27773; CA 27774 27773 27772; CX 27772 4347 4346; CX 313 4792 27771; CX 27771 4346 4856; CX 313 4346 27770; CX 4792 4346 27769; CA 27770 27769 27768;
  CX 27768 4346 4345; CX 312 4791 27767; CX 27767 4345 4855; CX 312 4345 27766; CX 4791 4345 27765; CA 27766 27765 27764; CX 27764 4345 4344; CX 311 4790 27763;
  CX 27763 4344 4854; CX 311 4344 27762; CX 4790 4344 27761; CA 27762 27761 27760; CX 27760 4344 4343; CX 310 4789 27759; CX 27759 4343 4853; CX 310 4343 27758;
  CX 4789 4343 27757; CA 27758 27757 27756; CX 27756 4343 4342; CX 309 4788 27755; CX 27755 4342 4852; CX 309 4342 27754; CX 4788 4342 27753; CA 27754 27753 27752;
  CX 27752 4342 4341; CX 308 4787 27751; CX 27751 4341 4851; CX 308 4341 27750; CX 4787 4341 27749; CA 27750 27749 27748; CX 27748 4341 4340; CX 307 4786 27747;
  CX 27747 4340 4850; CX 307 4340 27746; CX 4786 4340 27745; CA 27746 27745 27744; CX 27744 4340 4339; CX 306 4785 27743; CX 27743 4339 4849; CX 306 4339 27742;
  CX 4785 4339 27741; CA 27742 27741 27740; CX 27740 4339 4338; CX 305 4784 27739; CX 27739 4338 4848; CX 305 4338 27738; CX 4784 4338 27737; CA 27738 27737 27736;
  CX 27736 4338 4337; CX 304 4783 27735; CX 27735 4337 4847; CX 304 4337 27734; CX 4783 4337 27733; CA 27734 27733 27732; CX 27732 4337 4336; CX 303 4782 27731;
  CX 27731 4336 4846; CX 303 4336 27730; CX 4782 4336 27729; CA 27730 27729 27728; CX 27728 4336 4335; CX 302 4781 27727; CX 27727 4335 4845; CX 302 4335 27726;
  CX 4781 4335 27725; CA 27726 27725 27724; CX 27724 4335 4334; CX 301 4780 27723; CX 27723 4334 4844; CX 301 4334 27722; CX 4780 4334 27721; CA 27722 27721 27720;
  CX 27720 4334 4333; CX 300 4779 27719; CX 27719 4333 4843; CX 300 4333 27718; CX 4779 4333 27717; CA 27718 27717 27716; CX 27716 4333 4332; CX 299 4778 27715;
  CX 27715 4332 4842; CX 299 4332 27714; CX 4778 4332 27713; CA 27714 27713 27712; CX 27712 4332 4331; CX 298 4777 27711; CX 27711 4331 4841; CX 298 4331 27710;
  CX 4777 4331 27709; CA 27710 27709 27708; CX 27708 4331 4330; CX 297 4776 27707; CX 27707 4330 4840; CX 297 4330 27706; CX 4776 4330 27705; CA 27706 27705 27704;
  CX 27704 4330 4329; CX 296 4775 27703; CX 27703 4329 4839; CX 296 4329 27702; CX 4775 4329 27701; CA 27702 27701 27700; CX 27700 4329 4328; CX 295 4774 27699;
  CX 27699 4328 4838; CX 295 4328 27698; CX 4774 4328 27697; CA 27698 27697 27696; CX 27696 4328 4327; CX 294 4773 27695; CX 27695 4327 4837; CX 294 4327 27694;
  CX 4773 4327 27693; CA 27694 27693 27692; CX 27692 4327 4326; CX 293 4772 27691; CX 27691 4326 4836; CX 293 4326 27690; CX 4772 4326 27689; CA 27690 27689 27688;
  CX 27688 4326 4325; CX 292 4771 27687; CX 27687 4325 4835; CX 292 4325 27686; CX 4771 4325 27685; CA 27686 27685 27684; CX 27684 4325 4324; CX 291 4770 27683;
  CX 27683 4324 4834; CX 291 4324 27682; CX 4770 4324 27681; CA 27682 27681 27680; CX 27680 4324 4323; CX 290 4769 27679; CX 27679 4323 4833; CX 290 4323 27678;
  CX 4769 4323 27677; CA 27678 27677 27676; CX 27676 4323 4322; CX 289 4768 27675; CX 27675 4322 4832; CX 289 4322 27674; CX 4768 4322 27673; CA 27674 27673 27672;
  CX 27672 4322 4321; CX 288 4767 27671; CX 27671 4321 4831; CX 288 4321 27670; CX 4767 4321 27669; CA 27670 27669 27668; CX 27668 4321 4320; CX 287 4766 27667;
  CX 27667 4320 4830; CX 287 4320 27666; CX 4766 4320 27665; CA 27666 27665 27664; CX 27664 4320 4319; CX 286 4765 27663; CX 27663 4319 4829; CX 286 4319 27662;
  CX 4765 4319 27661; CA 27662 27661 27660; CX 27660 4319 4318; CX 285 4764 27659; CX 27659 4318 4828; CX 285 4318 27658; CX 4764 4318 27657; CA 27658 27657 27656;
  CX 27656 4318 4317; CX 284 4763 27655; CX 27655 4317 4827; CX 284 4317 27654; CX 4763 4317 27653; CA 27654 27653 27652; CX 27652 4317 4316; CX 283 4762 27651;
  CX 27651 4316 4826; CX 283 4316 27650; CX 4762 4316 27649; CA 27650 27649 27648; CX 27648 4316 4315; CX 282 4761 27647; CX 27647 4315 4825; CX 282 4315 27646;
  CX 4761 4315 27645; CA 27646 27645 27644; CX 27644 4315 4314; CX 281 4760 27643; CX 27643 4314 4824; CX 281 4314 27642; CX 4760 4314 27641; CA 27642 27641 27640;
  CX 27640 4314 4313; CX 280 4759 27639; CX 27639 4313 4823; CX 280 4313 27638; CX 4759 4313 27637; CA 27638 27637 27636; CX 27636 4313 4312; CX 279 4758 27635;
  CX 27635 4312 4822; CX 279 4312 27634; CX 4758 4312 27633; CA 27634 27633 27632; CX 27632 4312 4311; CX 278 4757 27631; CX 27631 4311 4821; CX 278 4311 27630;
  CX 4757 4311 27629; CA 27630 27629 27628; CX 27628 4311 4310; CX 277 4756 27627; CX 27627 4310 4820; CX 277 4310 27626; CX 4756 4310 27625; CA 27626 27625 27624;
  CX 27624 4310 4309; CX 276 4755 27623; CX 27623 4309 4819; CX 276 4309 27622; CX 4755 4309 27621; CA 27622 27621 27620; CX 27620 4309 4308; CX 275 4754 27619;
  CX 27619 4308 4818; CX 275 4308 27618; CX 4754 4308 27617; CA 27618 27617 27616; CX 27616 4308 4307; CX 274 4753 27615; CX 27615 4307 4817; CX 274 4307 27614;
  CX 4753 4307 27613; CA 27614 27613 27612; CX 27612 4307 4306; CX 273 4752 27611; CX 27611 4306 4816; CX 273 4306 27610; CX 4752 4306 27609; CA 27610 27609 27608;
  CX 27608 4306 4305; CX 272 4751 27607; CX 27607 4305 4815; CX 272 4305 27606; CX 4751 4305 27605; CA 27606 27605 27604; CX 27604 4305 4304; CX 271 4750 27603;
  CX 27603 4304 4814; CX 271 4304 27602; CX 4750 4304 27601; CA 27602 27601 27600; CX 27600 4304 4303; CX 270 4749 27599; CX 27599 4303 4813; CX 270 4303 27598;
  CX 4749 4303 27597; CA 27598 27597 27596; CX 27596 4303 4302; CX 269 4748 27595; CX 27595 4302 4812; CX 269 4302 27594; CX 4748 4302 27593; CA 27594 27593 27592;
  CX 27592 4302 4301; CX 268 4747 27591; CX 27591 4301 4811; CX 268 4301 27590; CX 4747 4301 27589; CA 27590 27589 27588; CX 27588 4301 4300; CX 267 4746 27587;
  CX 27587 4300 4810; CX 267 4300 27586; CX 4746 4300 27585; CA 27586 27585 27584; CX 27584 4300 4299; CX 266 4745 27583; CX 27583 4299 4809; CX 266 4299 27582;
  CX 4745 4299 27581; CA 27582 27581 27580; CX 27580 4299 4298; CX 265 4744 27579; CX 27579 4298 4808; CX 265 4298 27578; CX 4744 4298 27577; CA 27578 27577 27576;
  CX 27576 4298 4297; CX 264 4743 27575; CX 27575 4297 4807; CX 264 4297 27574; CX 4743 4297 27573; CA 27574 27573 27572; CX 27572 4297 4296; CX 263 4742 27571].
(** Lines 4805-5204 of the file. *)
Definition mult2_64_12 : list cg := [
  CX 27571 4296 4806; CX 263 4296 27570; CX 4742 4296 27569; CA 27570 27569 27568; CX 27568 4296 4295; CX 262 4741 27567; CX 27567 4295 4805; CX 262 4295 27566;
  CX 4741 4295 27565; CA 27566 27565 27564; CX 27564 4295 4294; CX 261 4740 27563; CX 27563 4294 4804; CX 261 4294 27562; CX 4740 4294 27561; CA 27562 27561 27560;
  CX 27560 4294 4293; CX 260 4739 27559; CX 27559 4293 4803; CX 260 4293 27558; CX 4739 4293 27557; CA 27558 27557 27556; CX 27556 4293 4292; CX 259 4738 27555;
  CX 27555 4292 4802; CX 259 4292 27554; CX 4738 4292 27553; CA 27554 27553 27552; CX 27552 4292 4291; CX 258 4737 27551; CX 27551 4291 4801; CX 258 4291 27550;
  CX 4737 4291 27549; CA 27550 27549 27548; CX 27548 4291 4290; CX 257 4736 27547; CX 27547 4290 4800; CX 257 4290 27546; CX 4736 4290 27545; CA 27546 27545 27544;
  CX 27544 4290 4289; CX 256 4735 27543; CX 27543 4289 4799; CX 256 4289 27542; CX 4735 4289 27541; CA 27542 27541 27540; CX 27540 4289 4288; CX 255 4223 27539;
  CX 27539 4288 4798; CX 255 4288 27538; CX 4223 4288 27537; CA 27538 27537 27536; CX 27536 4288 4287; CX 381 4859 27535; CX 27535 4414 4923; CX 446 4923 28100;
  CA 446 4923 4478; CX 381 4414 27534; CX 4859 4414 27533; CA 27534 27533 27532; CX 27532 4414 4413; CX 380 4858 27531; CX 27531 4413 4922; CX 380 4413 27530;
  CX 4858 4413 27529; CA 27530 27529 27528; CX 27528 4413 4412; CX 379 4857 27527; CX 27527 4412 4921; CX 379 4412 27526; CX 4857 4412 27525; CA 27526 27525 27524;
  CX 27524 4412 4411; CX 378 4856 27523; CX 27523 4411 4920; CX 378 4411 27522; CX 4856 4411 27521; CA 27522 27521 27520; CX 27520 4411 4410; CX 377 4855 27519;
  CX 27519 4410 4919; CX 377 4410 27518; CX 4855 4410 27517; CA 27518 27517 27516; CX 27516 4410 4409; CX 376 4854 27515; CX 27515 4409 4918; CX 376 4409 27514;
  CX 4854 4409 27513; CA 27514 27513 27512; CX 27512 4409 4408; CX 375 4853 27511; CX 27511 4408 4917; CX 375 4408 27510; CX 4853 4408 27509; CA 27510 27509 27508;
  CX 27508 4408 4407; CX 374 4852 27507; CX 27507 4407 4916; CX 374 4407 27506; CX 4852 4407 27505; CA 27506 27505 27504; CX 27504 4407 4406; CX 373 4851 27503;
  CX 27503 4406 4915; CX 373 4406 27502; CX 4851 4406 27501; CA 27502 27501 27500; CX 27500 4406 4405; CX 372 4850 27499; CX 27499 4405 4914; CX 372 4405 27498;
  CX 4850 4405 27497; CA 27498 27497 27496; CX 27496 4405 4404; CX 371 4849 27495; CX 27495 4404 4913; CX 371 4404 27494; CX 4849 4404 27493; CA 27494 27493 27492;
  CX 27492 4404 4403; CX 370 4848 27491; CX 27491 4403 4912; CX 370 4403 27490; CX 4848 4403 27489; CA 27490 27489 27488; CX 27488 4403 4402; CX 369 4847 27487;
  CX 27487 4402 4911; CX 369 4402 27486; CX 4847 4402 27485; CA 27486 27485 27484; CX 27484 4402 4401; CX 368 4846 27483; CX 27483 4401 4910; CX 368 4401 27482;
  CX 4846 4401 27481; CA 27482 27481 27480; CX 27480 4401 4400; CX 367 4845 27479; CX 27479 4400 4909; CX 367 4400 27478; CX 4845 4400 27477; CA 27478 27477 27476;
  CX 27476 4400 4399; CX 366 4844 27475; CX 27475 4399 4908; CX 366 4399 27474; CX 4844 4399 27473; CA 27474 27473 27472; CX 27472 4399 4398; CX 365 4843 27471;
  CX 27471 4398 4907; CX 365 4398 27470; CX 4843 4398 27469; CA 27470 27469 27468; CX 27468 4398 4397; CX 364 4842 27467; CX 27467 4397 4906; CX 364 4397 27466;
  CX 4842 4397 27465; CA 27466 27465 27464; CX 27464 4397 4396; CX 363 4841 27463; CX 27463 4396 4905; CX 363 4396 27462; CX 4841 4396 27461; CA 27462 27461 27460;
  CX 27460 4396 4395; CX 362 4840 27459; CX 27459 4395 4904; CX 362 4395 27458; CX 4840 4395 27457; CA 27458 27457 27456; CX 27456 4395 4394; CX 361 4839 27455;
  CX 27455 4394 4903; CX 361 4394 27454; CX 4839 4394 27453; CA 27454 27453 27452; CX 27452 4394 4393; CX 360 4838 27451; CX 27451 4393 4902; CX 360 4393 27450;
  CX 4838 4393 27449; CA 27450 27449 27448; CX 27448 4393 4392; CX 359 4837 27447; CX 27447 4392 4901; CX 359 4392 27446; CX 4837 4392 27445; CA 27446 27445 27444;
  CX 27444 4392 4391; CX 358 4836 27443; CX 27443 4391 4900; CX 358 4391 27442; CX 4836 4391 27441; CA 27442 27441 27440; CX 27440 4391 4390; CX 357 4835 27439;
  CX 27439 4390 4899; CX 357 4390 27438; CX 4835 4390 27437; CA 27438 27437 27436; CX 27436 4390 4389; CX 356 4834 27435; CX 27435 4389 4898; CX 356 4389 27434;
  CX 4834 4389 27433; CA 27434 27433 27432; CX 27432 4389 4388; CX 355 4833 27431; CX 27431 4388 4897; CX 355 4388 27430; CX 4833 4388 27429; CA 27430 27429 27428;
  CX 27428 4388 4387; CX 354 4832 27427; CX 27427 4387 4896; CX 354 4387 27426; CX 4832 4387 27425; CA 27426 27425 27424; CX 27424 4387 4386; CX 353 4831 27423;
  CX 27423 4386 4895; CX 353 4386 27422; CX 4831 4386 27421; CA 27422 27421 27420; CX 27420 4386 4385; CX 352 4830 27419; CX 27419 4385 4894; CX 352 4385 27418;
  CX 4830 4385 27417; CA 27418 27417 27416; CX 27416 4385 4384; CX 351 4829 27415; CX 27415 4384 4893; CX 351 4384 27414; CX 4829 4384 27413; CA 27414 27413 27412;
  CX 27412 4384 4383; CX 350 4828 27411; CX 27411 4383 4892; CX 350 4383 27410; CX 4828 4383 27409; CA 27410 27409 27408; CX 27408 4383 4382; CX 349 4827 27407;
  CX 27407 4382 4891; CX 349 4382 27406; CX 4827 4382 27405; CA 27406 27405 27404; CX 27404 4382 4381; CX 348 4826 27403; CX 27403 4381 4890; CX 348 4381 27402;
  CX 4826 4381 27401; CA 27402 27401 27400; CX 27400 4381 4380; CX 347 4825 27399; CX 27399 4380 4889; CX 347 4380 27398; CX 4825 4380 27397; CA 27398 27397 27396;
  CX 27396 4380 4379; CX 346 4824 27395; CX 27395 4379 4888; CX 346 4379 27394; CX 4824 4379 27393; CA 27394 27393 27392; CX 27392 4379 4378; CX 345 4823 27391;
  CX 27391 4378 4887; CX 345 4378 27390; CX 4823 4378 27389; CA 27390 27389 27388; CX 27388 4378 4377; CX 344 4822 27387; CX 27387 4377 4886; CX 344 4377 27386;
  CX 4822 4377 27385; CA 27386 27385 27384; CX 27384 4377 4376; CX 343 4821 27383; CX 27383 4376 4885; CX 343 4376 27382; CX 4821 4376 27381; CA 27382 27381 27380;
  CX 27380 4376 4375; CX 342 4820 27379; CX 27379 4375 4884; CX 342 4375 27378; CX 4820 4375 27377; CA 27378 27377 27376; CX 27376 4375 4374; CX 341 4819 27375;
  CX 27375 4374 4883; CX 341 4374 27374; CX 4819 4374 27373; CA 27374 27373 27372; CX 27372 4374 4373; CX 340 4818 27371; CX 27371 4373 4882; CX 340 4373 27370;
  CX 4818 4373 27369; CA 27370 27369 27368; CX 27368 4373 4372; CX 339 4817 27367; CX 27367 4372 4881; CX 339 4372 27366; CX 4817 4372 27365; CA 27366 27365 27364;
  CX 27364 4372 4371; CX 338 4816 27363; CX 27363 4371 4880; CX 338 4371 27362; CX 4816 4371 27361; CA 27362 27361 27360; CX 27360 4371 4370; CX 337 4815 27359;
  CX 27359 4370 4879; CX 337 4370 27358; CX 4815 4370 27357; CA 27358 27357 27356; CX 27356 4370 4369; CX 336 4814 27355; CX 27355 4369 4878; CX 336 4369 27354;
  CX 4814 4369 27353; CA 27354 27353 27352; CX 27352 4369 4368; CX 335 4813 27351; CX 27351 4368 4877; CX 335 4368 27350; CX 4813 4368 27349; CA 27350 27349 27348;
  CX 27348 4368 4367; CX 334 4812 27347; CX 27347 4367 4876; CX 334 4367 27346; CX 4812 4367 27345; CA 27346 27345 27344; CX 27344 4367 4366; CX 333 4811 27343;
  CX 27343 4366 4875; CX 333 4366 27342; CX 4811 4366 27341; CA 27342 27341 27340; CX 27340 4366 4365; CX 332 4810 27339; CX 27339 4365 4874; CX 332 4365 27338;
  CX 4810 4365 27337; CA 27338 27337 27336; CX 27336 4365 4364; CX 331 4809 27335; CX 27335 4364 4873; CX 331 4364 27334; CX 4809 4364 27333; CA 27334 27333 27332;
  CX 27332 4364 4363; CX 330 4808 27331; CX 27331 4363 4872; CX 330 4363 27330; CX 4808 4363 27329; CA 27330 27329 27328; CX 27328 4363 4362; CX 329 4807 27327;
  CX 27327 4362 4871; CX 329 4362 27326; CX 4807 4362 27325; CA 27326 27325 27324; CX 27324 4362 4361; CX 328 4806 27323; CX 27323 4361 4870; CX 328 4361 27322;
  CX 4806 4361 27321; CA 27322 27321 27320; CX 27320 4361 4360; CX 327 4805 27319; CX 27319 4360 4869; CX 327 4360 27318; CX 4805 4360 27317; CA 27318 27317 27316;
  CX 27316 4360 4359; CX 326 4804 27315; CX 27315 4359 4868; CX 326 4359 27314; CX 4804 4359 27313; CA 27314 27313 27312; CX 27312 4359 4358; CX 325 4803 27311;
  CX 27311 4358 4867; CX 325 4358 27310; CX 4803 4358 27309; CA 27310 27309 27308; CX 27308 4358 4357; CX 324 4802 27307; CX 27307 4357 4866; CX 324 4357 27306].
(** Lines 5205-5604 of the file. *)
Definition mult2_64_13 : list cg := [
  CX 4802 4357 27305; CA 27306 27305 27304; CX 27304 4357 4356; CX 323 4801 27303; CX 27303 4356 4865; CX 323 4356 27302; CX 4801 4356 27301; CA 27302 27301 27300;
  CX 27300 4356 4355; CX 322 4800 27299; CX 27299 4355 4864; CX 322 4355 27298; CX 4800 4355 27297; CA 27298 27297 27296; CX 27296 4355 4354; CX 321 4799 27295;
  CX 27295 4354 4863; CX 321 4354 27294; CX 4799 4354 27293; CA 27294 27293 27292; CX 27292 4354 4353; CX 320 4798 27291; CX 27291 4353 4862; CX 320 4353 27290;
  CX 4798 4353 27289; CA 27290 27289 27288; CX 27288 4353 4352; CX 319 4287 27287; CX 27287 4352 4861; CX 319 4352 27286; CX 4287 4352 27285; CA 27286 27285 27284;
  CX 27284 4352 4351; CX 445 4922 27283; CX 27283 4478 4986; CX 510 4986 28101; CA 510 4986 4542; CX 445 4478 27282; CX 4922 4478 27281; CA 27282 27281 27280;
  CX 27280 4478 4477; CX 444 4921 27279; CX 27279 4477 4985; CX 444 4477 27278; CX 4921 4477 27277; CA 27278 27277 27276; CX 27276 4477 4476; CX 443 4920 27275;
  CX 27275 4476 4984; CX 443 4476 27274; CX 4920 4476 27273; CA 27274 27273 27272; CX 27272 4476 4475; CX 442 4919 27271; CX 27271 4475 4983; CX 442 4475 27270;
  CX 4919 4475 27269; CA 27270 27269 27268; CX 27268 4475 4474; CX 441 4918 27267; CX 27267 4474 4982; CX 441 4474 27266; CX 4918 4474 27265; CA 27266 27265 27264;
  CX 27264 4474 4473; CX 440 4917 27263; CX 27263 4473 4981; CX 440 4473 27262; CX 4917 4473 27261; CA 27262 27261 27260; CX 27260 4473 4472; CX 439 4916 27259;
  CX 27259 4472 4980; CX 439 4472 27258; CX 4916 4472 27257; CA 27258 27257 27256; CX 27256 4472 4471; CX 438 4915 27255; CX 27255 4471 4979; CX 438 4471 27254;
  CX 4915 4471 27253; CA 27254 27253 27252; CX 27252 4471 4470; CX 437 4914 27251; CX 27251 4470 4978; CX 437 4470 27250; CX 4914 4470 27249; CA 27250 27249 27248;
  CX 27248 4470 4469; CX 436 4913 27247; CX 27247 4469 4977; CX 436 4469 27246; CX 4913 4469 27245; CA 27246 27245 27244; CX 27244 4469 4468; CX 435 4912 27243;
  CX 27243 4468 4976; CX 435 4468 27242; CX 4912 4468 27241; CA 27242 27241 27240; CX 27240 4468 4467; CX 434 4911 27239; CX 27239 4467 4975; CX 434 4467 27238;
  CX 4911 4467 27237; CA 27238 27237 27236; CX 27236 4467 4466; CX 433 4910 27235; CX 27235 4466 4974; CX 433 4466 27234; CX 4910 4466 27233; CA 27234 27233 27232;
  CX 27232 4466 4465; CX 432 4909 27231; CX 27231 4465 4973; CX 432 4465 27230; CX 4909 4465 27229; CA 27230 27229 27228; CX 27228 4465 4464; CX 431 4908 27227;
  CX 27227 4464 4972; CX 431 4464 27226; CX 4908 4464 27225; CA 27226 27225 27224; CX 27224 4464 4463; CX 430 4907 27223; CX 27223 4463 4971; CX 430 4463 27222;
  CX 4907 4463 27221; CA 27222 27221 27220; CX 27220 4463 4462; CX 429 4906 27219; CX 27219 4462 4970; CX 429 4462 27218; CX 4906 4462 27217; CA 27218 27217 27216;
  CX 27216 4462 4461; CX 428 4905 27215; CX 27215 4461 4969; CX 428 4461 27214; CX 4905 4461 27213; CA 27214 27213 27212; CX 27212 4461 4460; CX 427 4904 27211;
  CX 27211 4460 4968; CX 427 4460 27210; CX 4904 4460 27209; CA 27210 27209 27208; CX 27208 4460 4459; CX 426 4903 27207; CX 27207 4459 4967; CX 426 4459 27206;
  CX 4903 4459 27205; CA 27206 27205 27204; CX 27204 4459 4458; CX 425 4902 27203; CX 27203 4458 4966; CX 425 4458 27202; CX 4902 4458 27201; CA 27202 27201 27200;
  CX 27200 4458 4457; CX 424 4901 27199; CX 27199 4457 4965; CX 424 4457 27198; CX 4901 4457 27197; CA 27198 27197 27196; CX 27196 4457 4456; CX 423 4900 27195;
  CX 27195 4456 4964; CX 423 4456 27194; CX 4900 4456 27193; CA 27194 27193 27192; CX 27192 4456 4455; CX 422 4899 27191; CX 27191 4455 4963; CX 422 4455 27190;
  CX 4899 4455 27189; CA 27190 27189 27188; CX 27188 4455 4454; CX 421 4898 27187; CX 27187 4454 4962; CX 421 4454 27186; CX 4898 4454 27185; CA 27186 27185 27184;
  CX 27184 4454 4453; CX 420 4897 27183; CX 27183 4453 4961; CX 420 4453 27182; CX 4897 4453 27181; CA 27182 27181 27180; CX 27180 4453 4452; CX 419 4896 27179;
  CX 27179 4452 4960; CX 419 4452 27178; CX 4896 4452 27177; CA 27178 27177 27176; CX 27176 4452 4451; CX 418 4895 27175; CX 27175 4451 4959; CX 418 4451 27174;
  CX 4895 4451 27173; CA 27174 27173 27172; CX 27172 4451 4450; CX 417 4894 27171; CX 27171 4450 4958; CX 417 4450 27170; CX 4894 4450 27169; CA 27170 27169 27168;
  CX 27168 4450 4449; CX 416 4893 27167; CX 27167 4449 4957; CX 416 4449 27166; CX 4893 4449 27165; CA 27166 27165 27164; CX 27164 4449 4448; CX 415 4892 27163;
  CX 27163 4448 4956; CX 415 4448 27162; CX 4892 4448 27161; CA 27162 27161 27160; CX 27160 4448 4447; CX 414 4891 27159; CX 27159 4447 4955; CX 414 4447 27158;
  CX 4891 4447 27157; CA 27158 27157 27156; CX 27156 4447 4446; CX 413 4890 27155; CX 27155 4446 4954; CX 413 4446 27154; CX 4890 4446 27153; CA 27154 27153 27152;
  CX 27152 4446 4445; CX 412 4889 27151; CX 27151 4445 4953; CX 412 4445 27150; CX 4889 4445 27149; CA 27150 27149 27148; CX 27148 4445 4444; CX 411 4888 27147;
  CX 27147 4444 4952; CX 411 4444 27146; CX 4888 4444 27145; CA 27146 27145 27144; CX 27144 4444 4443; CX 410 4887 27143; CX 27143 4443 4951; CX 410 4443 27142;
  CX 4887 4443 27141; CA 27142 27141 27140; CX 27140 4443 4442; CX 409 4886 27139; CX 27139 4442 4950; CX 409 4442 27138; CX 4886 4442 27137; CA 27138 27137 27136;
  CX 27136 4442 4441; CX 408 4885 27135; CX 27135 4441 4949; CX 408 4441 27134; CX 4885 4441 27133; CA 27134 27133 27132; CX 27132 4441 4440; CX 407 4884 27131;
  CX 27131 4440 4948; CX 407 4440 27130; CX 4884 4440 27129; CA 27130 27129 27128; CX 27128 4440 4439; CX 406 4883 27127; CX 27127 4439 4947; CX 406 4439 27126;
  CX 4883 4439 27125; CA 27126 27125 27124; CX 27124 4439 4438; CX 405 4882 27123; CX 27123 4438 4946; CX 405 4438 27122; CX 4882 4438 27121; CA 27122 27121 27120;
  CX 27120 4438 4437; CX 404 4881 27119; CX 27119 4437 4945; CX 404 4437 27118; CX 4881 4437 27117; CA 27118 27117 27116; CX 27116 4437 4436; CX 403 4880 27115;
  CX 27115 4436 4944; CX 403 4436 27114; CX 4880 4436 27113; CA 27114 27113 27112; CX 27112 4436 4435; CX 402 4879 27111; CX 27111 4435 4943; CX 402 4435 27110;
  CX 4879 4435 27109; CA 27110 27109 27108; CX 27108 4435 4434; CX 401 4878 27107; CX 27107 4434 4942; CX 401 4434 27106; CX 4878 4434 27105; CA 27106 27105 27104;
  CX 27104 4434 4433; CX 400 4877 27103; CX 27103 4433 4941; CX 400 4433 27102; CX 4877 4433 27101; CA 27102 27101 27100; CX 27100 4433 4432; CX 399 4876 27099;
  CX 27099 4432 4940; CX 399 4432 27098; CX 4876 4432 27097; CA 27098 27097 27096; CX 27096 4432 4431; CX 398 4875 27095; CX 27095 4431 4939; CX 398 4431 27094;
  CX 4875 4431 27093; CA 27094 27093 27092; CX 27092 4431 4430; CX 397 4874 27091; CX 27091 4430 4938; CX 397 4430 27090; CX 4874 4430 27089; CA 27090 27089 27088;
  CX 27088 4430 4429; CX 396 4873 27087; CX 27087 4429 4937; CX 396 4429 27086; CX 4873 4429 27085; CA 27086 27085 27084; CX 27084 4429 4428; CX 395 4872 27083;
  CX 27083 4428 4936; CX 395 4428 27082; CX 4872 4428 27081; CA 27082 27081 27080; CX 27080 4428 4427; CX 394 4871 27079; CX 27079 4427 4935; CX 394 4427 27078;
  CX 4871 4427 27077; CA 27078 27077 27076; CX 27076 4427 4426; CX 393 4870 27075; CX 27075 4426 4934; CX 393 4426 27074; CX 4870 4426 27073; CA 27074 27073 27072;
  CX 27072 4426 4425; CX 392 4869 27071; CX 27071 4425 4933; CX 392 4425 27070; CX 4869 4425 27069; CA 27070 27069 27068; CX 27068 4425 4424; CX 391 4868 27067;
  CX 27067 4424 4932; CX 391 4424 27066; CX 4868 4424 27065; CA 27066 27065 27064; CX 27064 4424 4423; CX 390 4867 27063; CX 27063 4423 4931; CX 390 4423 27062;
  CX 4867 4423 27061; CA 27062 27061 27060; CX 27060 4423 4422; CX 389 4866 27059; CX 27059 4422 4930; CX 389 4422 27058; CX 4866 4422 27057; CA 27058 27057 27056;
  CX 27056 4422 4421; CX 388 4865 27055; CX 27055 4421 4929; CX 388 4421 27054; CX 4865 4421 27053; CA 27054 27053 27052; CX 27052 4421 4420; CX 387 4864 27051;
  CX 27051 4420 4928; CX 387 4420 27050; CX 4864 4420 27049; CA 27050 27049 27048; CX 27048 4420 4419; CX 386 4863 27047; CX 27047 4419 4927; CX 386 4419 27046;
  CX 4863 4419 27045; CA 27046 27045 27044; CX 27044 4419 4418; CX 385 4862 27043; CX 27043 4418 4926; CX 385 4418 27042; CX 4862 4418 27041; CA 27042 27041 27040].
(** Lines 5605-6004 of the file. *)
Definition mult2_64_14 : list cg := [
  CX 27040 4418 4417; CX 384 4861 27039; CX 27039 4417 4925; CX 384 4417 27038; CX 4861 4417 27037; CA 27038 27037 27036; CX 27036 4417 4416; CX 383 4351 27035;
  CX 27035 4416 4924; CX 383 4416 27034; CX 4351 4416 27033; CA 27034 27033 27032; CX 27032 4416 4415; CX 509 4985 27031; CX 27031 4542 5049; CX 574 5049 28102;
  CA 574 5049 4606; CX 509 4542 27030; CX 4985 4542 27029; CA 27030 27029 27028; CX 27028 4542 4541; CX 508 4984 27027; CX 27027 4541 5048; CX 508 4541 27026;
  CX 4984 4541 27025; CA 27026 27025 27024; CX 27024 4541 4540; CX 507 4983 27023; CX 27023 4540 5047; CX 507 4540 27022; CX 4983 4540 27021; CA 27022 27021 27020;
  CX 27020 4540 4539; CX 506 4982 27019; CX 27019 4539 5046; CX 506 4539 27018; CX 4982 4539 27017; CA 27018 27017 27016; CX 27016 4539 4538; CX 505 4981 27015;
  CX 27015 4538 5045; CX 505 4538 27014; CX 4981 4538 27013; CA 27014 27013 27012; CX 27012 4538 4537; CX 504 4980 27011; CX 27011 4537 5044; CX 504 4537 27010;
  CX 4980 4537 27009; CA 27010 27009 27008; CX 27008 4537 4536; CX 503 4979 27007; CX 27007 4536 5043; CX 503 4536 27006; CX 4979 4536 27005; CA 27006 27005 27004;
  CX 27004 4536 4535; CX 502 4978 27003; CX 27003 4535 5042; CX 502 4535 27002; CX 4978 4535 27001; CA 27002 27001 27000; CX 27000 4535 4534; CX 501 4977 26999;
  CX 26999 4534 5041; CX 501 4534 26998; CX 4977 4534 26997; CA 26998 26997 26996; CX 26996 4534 4533; CX 500 4976 26995; CX 26995 4533 5040; CX 500 4533 26994;
  CX 4976 4533 26993; CA 26994 26993 26992; CX 26992 4533 4532; CX 499 4975 26991; CX 26991 4532 5039; CX 499 4532 26990; CX 4975 4532 26989; CA 26990 26989 26988;
  CX 26988 4532 4531; CX 498 4974 26987; CX 26987 4531 5038; CX 498 4531 26986; CX 4974 4531 26985; CA 26986 26985 26984; CX 26984 4531 4530; CX 497 4973 26983;
  CX 26983 4530 5037; CX 497 4530 26982; CX 4973 4530 26981; CA 26982 26981 26980; CX 26980 4530 4529; CX 496 4972 26979; CX 26979 4529 5036; CX 496 4529 26978;
  CX 4972 4529 26977; CA 26978 26977 26976; CX 26976 4529 4528; CX 495 4971 26975; CX 26975 4528 5035; CX 495 4528 26974; CX 4971 4528 26973; CA 26974 26973 26972;
  CX 26972 4528 4527; CX 494 4970 26971; CX 26971 4527 5034; CX 494 4527 26970; CX 4970 4527 26969; CA 26970 26969 26968; CX 26968 4527 4526; CX 493 4969 26967;
  CX 26967 4526 5033; CX 493 4526 26966; CX 4969 4526 26965; CA 26966 26965 26964; CX 26964 4526 4525; CX 492 4968 26963; CX 26963 4525 5032; CX 492 4525 26962;
  CX 4968 4525 26961; CA 26962 26961 26960; CX 26960 4525 4524; CX 491 4967 26959; CX 26959 4524 5031; CX 491 4524 26958; CX 4967 4524 26957; CA 26958 26957 26956;
  CX 26956 4524 4523; CX 490 4966 26955; CX 26955 4523 5030; CX 490 4523 26954; CX 4966 4523 26953; CA 26954 26953 26952; CX 26952 4523 4522; CX 489 4965 26951;
  CX 26951 4522 5029; CX 489 4522 26950; CX 4965 4522 26949; CA 26950 26949 26948; CX 26948 4522 4521; CX 488 4964 26947; CX 26947 4521 5028; CX 488 4521 26946;
  CX 4964 4521 26945; CA 26946 26945 26944; CX 26944 4521 4520; CX 487 4963 26943; CX 26943 4520 5027; CX 487 4520 26942; CX 4963 4520 26941; CA 26942 26941 26940;
  CX 26940 4520 4519; CX 486 4962 26939; CX 26939 4519 5026; CX 486 4519 26938; CX 4962 4519 26937; CA 26938 26937 26936; CX 26936 4519 4518; CX 485 4961 26935;
  CX 26935 4518 5025; CX 485 4518 26934; CX 4961 4518 26933; CA 26934 26933 26932; CX 26932 4518 4517; CX 484 4960 26931; CX 26931 4517 5024; CX 484 4517 26930;
  CX 4960 4517 26929; CA 26930 26929 26928; CX 26928 4517 4516; CX 483 4959 26927; CX 26927 4516 5023; CX 483 4516 26926; CX 4959 4516 26925; CA 26926 26925 26924;
  CX 26924 4516 4515; CX 482 4958 26923; CX 26923 4515 5022; CX 482 4515 26922; CX 4958 4515 26921; CA 26922 26921 26920; CX 26920 4515 4514; CX 481 4957 26919;
  CX 26919 4514 5021; CX 481 4514 26918; CX 4957 4514 26917; CA 26918 26917 26916; CX 26916 4514 4513; CX 480 4956 26915; CX 26915 4513 5020; CX 480 4513 26914;
  CX 4956 4513 26913; CA 26914 26913 26912; CX 26912 4513 4512; CX 479 4955 26911; CX 26911 4512 5019; CX 479 4512 26910; CX 4955 4512 26909; CA 26910 26909 26908;
  CX 26908 4512 4511; CX 478 4954 26907; CX 26907 4511 5018; CX 478 4511 26906; CX 4954 4511 26905; CA 26906 26905 26904; CX 26904 4511 4510; CX 477 4953 26903;
  CX 26903 4510 5017; CX 477 4510 26902; CX 4953 4510 26901; CA 26902 26901 26900; CX 26900 4510 4509; CX 476 4952 26899; CX 26899 4509 5016; CX 476 4509 26898;
  CX 4952 4509 26897; CA 26898 26897 26896; CX 26896 4509 4508; CX 475 4951 26895; CX 26895 4508 5015; CX 475 4508 26894; CX 4951 4508 26893; CA 26894 26893 26892;
  CX 26892 4508 4507; CX 474 4950 26891; CX 26891 4507 5014; CX 474 4507 26890; CX 4950 4507 26889; CA 26890 26889 26888; CX 26888 4507 4506; CX 473 4949 26887;
  CX 26887 4506 5013; CX 473 4506 26886; CX 4949 4506 26885; CA 26886 26885 26884; CX 26884 4506 4505; CX 472 4948 26883; CX 26883 4505 5012; CX 472 4505 26882;
  CX 4948 4505 26881; CA 26882 26881 26880; CX 26880 4505 4504; CX 471 4947 26879; CX 26879 4504 5011; CX 471 4504 26878; CX 4947 4504 26877; CA 26878 26877 26876;
  CX 26876 4504 4503; CX 470 4946 26875; CX 26875 4503 5010; CX 470 4503 26874; CX 4946 4503 26873; CA 26874 26873 26872; CX 26872 4503 4502; CX 469 4945 26871;
  CX 26871 4502 5009; CX 469 4502 26870; CX 4945 4502 26869; CA 26870 26869 26868; CX 26868 4502 4501; CX 468 4944 26867; CX 26867 4501 5008; CX 468 4501 26866;
  CX 4944 4501 26865; CA 26866 26865 26864; CX 26864 4501 4500; CX 467 4943 26863; CX 26863 4500 5007; CX 467 4500 26862; CX 4943 4500 26861; CA 26862 26861 26860;
  CX 26860 4500 4499; CX 466 4942 26859; CX 26859 4499 5006; CX 466 4499 26858; CX 4942 4499 26857; CA 26858 26857 26856; CX 26856 4499 4498; CX 465 4941 26855;
  CX 26855 4498 5005; CX 465 4498 26854; CX 4941 4498 26853; CA 26854 26853 26852; CX 26852 4498 4497; CX 464 4940 26851; CX 26851 4497 5004; CX 464 4497 26850;
  CX 4940 4497 26849; CA 26850 26849 26848; CX 26848 4497 4496; CX 463 4939 26847; CX 26847 4496 5003; CX 463 4496 26846; CX 4939 4496 26845; CA 26846 26845 26844;
  CX 26844 4496 4495; CX 462 4938 26843; CX 26843 4495 5002; CX 462 4495 26842; CX 4938 4495 26841; CA 26842 26841 26840; CX 26840 4495 4494; CX 461 4937 26839;
  CX 26839 4494 5001; CX 461 4494 26838; CX 4937 4494 26837; CA 26838 26837 26836; CX 26836 4494 4493; CX 460 4936 26835; CX 26835 4493 5000; CX 460 4493 26834;
  CX 4936 4493 26833; CA 26834 26833 26832; CX 26832 4493 4492; CX 459 4935 26831; CX 26831 4492 4999; CX 459 4492 26830; CX 4935 4492 26829; CA 26830 26829 26828;
  CX 26828 4492 4491; CX 458 4934 26827; CX 26827 4491 4998; CX 458 4491 26826; CX 4934 4491 26825; CA 26826 26825 26824; CX 26824 4491 4490; CX 457 4933 26823;
  CX 26823 4490 4997; CX 457 4490 26822; CX 4933 4490 26821; CA 26822 26821 26820; CX 26820 4490 4489; CX 456 4932 26819; CX 26819 4489 4996; CX 456 4489 26818;
  CX 4932 4489 26817; CA 26818 26817 26816; CX 26816 4489 4488; CX 455 4931 26815; CX 26815 4488 4995; CX 455 4488 26814; CX 4931 4488 26813; CA 26814 26813 26812;
  CX 26812 4488 4487; CX 454 4930 26811; CX 26811 4487 4994; CX 454 4487 26810; CX 4930 4487 26809; CA 26810 26809 26808; CX 26808 4487 4486; CX 453 4929 26807;
  CX 26807 4486 4993; CX 453 4486 26806; CX 4929 4486 26805; CA 26806 26805 26804; CX 26804 4486 4485; CX 452 4928 26803; CX 26803 4485 4992; CX 452 4485 26802;
  CX 4928 4485 26801; CA 26802 26801 26800; CX 26800 4485 4484; CX 451 4927 26799; CX 26799 4484 4991; CX 451 4484 26798; CX 4927 4484 26797; CA 26798 26797 26796;
  CX 26796 4484 4483; CX 450 4926 26795; CX 26795 4483 4990; CX 450 4483 26794; CX 4926 4483 26793; CA 26794 26793 26792; CX 26792 4483 4482; CX 449 4925 26791;
  CX 26791 4482 4989; CX 449 4482 26790; CX 4925 4482 26789; CA 26790 26789 26788; CX 26788 4482 4481; CX 448 4924 26787; CX 26787 4481 4988; CX 448 4481 26786;
  CX 4924 4481 26785; CA 26786 26785 26784; CX 26784 4481 4480; CX 447 4415 26783; CX 26783 4480 4987; CX 447 4480 26782; CX 4415 4480 26781; CA 26782 26781 26780;
  CX 26780 4480 4479; CX 573 5048 26779; CX 26779 4606 5112; CX 638 5112 28103; CA 638 5112 4670; CX 573 4606 26778; CX 5048 4606 26777; CA 26778 26777 26776].
(** Lines 6005-6404 of the file. *)
Definition mult2_64_15 : list cg := [
  CX 26776 4606 4605; CX 572 5047 26775; CX 26775 4605 5111; CX 572 4605 26774; CX 5047 4605 26773; CA 26774 26773 26772; CX 26772 4605 4604; CX 571 5046 26771;
  CX 26771 4604 5110; CX 571 4604 26770; CX 5046 4604 26769; CA 26770 26769 26768; CX 26768 4604 4603; CX 570 5045 26767; CX 26767 4603 5109; CX 570 4603 26766;
  CX 5045 4603 26765; CA 26766 26765 26764; CX 26764 4603 4602; CX 569 5044 26763; CX 26763 4602 5108; CX 569 4602 26762; CX 5044 4602 26761; CA 26762 26761 26760;
  CX 26760 4602 4601; CX 568 5043 26759; CX 26759 4601 5107; CX 568 4601 26758; CX 5043 4601 26757; CA 26758 26757 26756; CX 26756 4601 4600; CX 567 5042 26755;
  CX 26755 4600 5106; CX 567 4600 26754; CX 5042 4600 26753; CA 26754 26753 26752; CX 26752 4600 4599; CX 566 5041 26751; CX 26751 4599 5105; CX 566 4599 26750;
  CX 5041 4599 26749; CA 26750 26749 26748; CX 26748 4599 4598; CX 565 5040 26747; CX 26747 4598 5104; CX 565 4598 26746; CX 5040 4598 26745; CA 26746 26745 26744;
  CX 26744 4598 4597; CX 564 5039 26743; CX 26743 4597 5103; CX 564 4597 26742; CX 5039 4597 26741; CA 26742 26741 26740; CX 26740 4597 4596; CX 563 5038 26739;
  CX 26739 4596 5102; CX 563 4596 26738; CX 5038 4596 26737; CA 26738 26737 26736; CX 26736 4596 4595; CX 562 5037 26735; CX 26735 4595 5101; CX 562 4595 26734;
  CX 5037 4595 26733; CA 26734 26733 26732; CX 26732 4595 4594; CX 561 5036 26731; CX 26731 4594 5100; CX 561 4594 26730; CX 5036 4594 26729; CA 26730 26729 26728;
  CX 26728 4594 4593; CX 560 5035 26727; CX 26727 4593 5099; CX 560 4593 26726; CX 5035 4593 26725; CA 26726 26725 26724; CX 26724 4593 4592; CX 559 5034 26723;
  CX 26723 4592 5098; CX 559 4592 26722; CX 5034 4592 26721; CA 26722 26721 26720; CX 26720 4592 4591; CX 558 5033 26719; CX 26719 4591 5097; CX 558 4591 26718;
  CX 5033 4591 26717; CA 26718 26717 26716; CX 26716 4591 4590; CX 557 5032 26715; CX 26715 4590 5096; CX 557 4590 26714; CX 5032 4590 26713; CA 26714 26713 26712;
  CX 26712 4590 4589; CX 556 5031 26711; CX 26711 4589 5095; CX 556 4589 26710; CX 5031 4589 26709; CA 26710 26709 26708; CX 26708 4589 4588; CX 555 5030 26707;
  CX 26707 4588 5094; CX 555 4588 26706; CX 5030 4588 26705; CA 26706 26705 26704; CX 26704 4588 4587; CX 554 5029 26703; CX 26703 4587 5093; CX 554 4587 26702;
  CX 5029 4587 26701; CA 26702 26701 26700; CX 26700 4587 4586; CX 553 5028 26699; CX 26699 4586 5092; CX 553 4586 26698; CX 5028 4586 26697; CA 26698 26697 26696;
  CX 26696 4586 4585; CX 552 5027 26695; CX 26695 4585 5091; CX 552 4585 26694; CX 5027 4585 26693; CA 26694 26693 26692; CX 26692 4585 4584; CX 551 5026 26691;
  CX 26691 4584 5090; CX 551 4584 26690; CX 5026 4584 26689; CA 26690 26689 26688; CX 26688 4584 4583; CX 550 5025 26687; CX 26687 4583 5089; CX 550 4583 26686;
  CX 5025 4583 26685; CA 26686 26685 26684; CX 26684 4583 4582; CX 549 5024 26683; CX 26683 4582 5088; CX 549 4582 26682; CX 5024 4582 26681; CA 26682 26681 26680;
  CX 26680 4582 4581; CX 548 5023 26679; CX 26679 4581 5087; CX 548 4581 26678; CX 5023 4581 26677; CA 26678 26677 26676; CX 26676 4581 4580; CX 547 5022 26675;
  CX 26675 4580 5086; CX 547 4580 26674; CX 5022 4580 26673; CA 26674 26673 26672; CX 26672 4580 4579; CX 546 5021 26671; CX 26671 4579 5085; CX 546 4579 26670;
  CX 5021 4579 26669; CA 26670 26669 26668; CX 26668 4579 4578; CX 545 5020 26667; CX 26667 4578 5084; CX 545 4578 26666; CX 5020 4578 26665; CA 26666 26665 26664;
  CX 26664 4578 4577; CX 544 5019 26663; CX 26663 4577 5083; CX 544 4577 26662; CX 5019 4577 26661; CA 26662 26661 26660; CX 26660 4577 4576; CX 543 5018 26659;
  CX 26659 4576 5082; CX 543 4576 26658; CX 5018 4576 26657; CA 26658 26657 26656; CX 26656 4576 4575; CX 542 5017 26655; CX 26655 4575 5081; CX 542 4575 26654;
  CX 5017 4575 26653; CA 26654 26653 26652; CX 26652 4575 4574; CX 541 5016 26651; CX 26651 4574 5080; CX 541 4574 26650; CX 5016 4574 26649; CA 26650 26649 26648;
  CX 26648 4574 4573; CX 540 5015 26647; CX 26647 4573 5079; CX 540 4573 26646; CX 5015 4573 26645; CA 26646 26645 26644; CX 26644 4573 4572; CX 539 5014 26643;
  CX 26643 4572 5078; CX 539 4572 26642; CX 5014 4572 26641; CA 26642 26641 26640; CX 26640 4572 4571; CX 538 5013 26639; CX 26639 4571 5077; CX 538 4571 26638;
  CX 5013 4571 26637; CA 26638 26637 26636; CX 26636 4571 4570; CX 537 5012 26635; CX 26635 4570 5076; CX 537 4570 26634; CX 5012 4570 26633; CA 26634 26633 26632;
  CX 26632 4570 4569; CX 536 5011 26631; CX 26631 4569 5075; CX 536 4569 26630; CX 5011 4569 26629; CA 26630 26629 26628; CX 26628 4569 4568; CX 535 5010 26627;
  CX 26627 4568 5074; CX 535 4568 26626; CX 5010 4568 26625; CA 26626 26625 26624; CX 26624 4568 4567; CX 534 5009 26623; CX 26623 4567 5073; CX 534 4567 26622;
  CX 5009 4567 26621; CA 26622 26621 26620; CX 26620 4567 4566; CX 533 5008 26619; CX 26619 4566 5072; CX 533 4566 26618; CX 5008 4566 26617; CA 26618 26617 26616;
  CX 26616 4566 4565; CX 532 5007 26615; CX 26615 4565 5071; CX 532 4565 26614; CX 5007 4565 26613; CA 26614 26613 26612; CX 26612 4565 4564; CX 531 5006 26611;
  CX 26611 4564 5070; CX 531 4564 26610; CX 5006 4564 26609; CA 26610 26609 26608; CX 26608 4564 4563; CX 530 5005 26607; CX 26607 4563 5069; CX 530 4563 26606;
  CX 5005 4563 26605; CA 26606 26605 26604; CX 26604 4563 4562; CX 529 5004 26603; CX 26603 4562 5068; CX 529 4562 26602; CX 5004 4562 26601; CA 26602 26601 26600;
  CX 26600 4562 4561; CX 528 5003 26599; CX 26599 4561 5067; CX 528 4561 26598; CX 5003 4561 26597; CA 26598 26597 26596; CX 26596 4561 4560; CX 527 5002 26595;
  CX 26595 4560 5066; CX 527 4560 26594; CX 5002 4560 26593; CA 26594 26593 26592; CX 26592 4560 4559; CX 526 5001 26591; CX 26591 4559 5065; CX 526 4559 26590;
  CX 5001 4559 26589; CA 26590 26589 26588; CX 26588 4559 4558; CX 525 5000 26587; CX 26587 4558 5064; CX 525 4558 26586; CX 5000 4558 26585; CA 26586 26585 26584;
  CX 26584 4558 4557; CX 524 4999 26583; CX 26583 4557 5063; CX 524 4557 26582; CX 4999 4557 26581; CA 26582 26581 26580; CX 26580 4557 4556; CX 523 4998 26579;
  CX 26579 4556 5062; CX 523 4556 26578; CX 4998 4556 26577; CA 26578 26577 26576; CX 26576 4556 4555; CX 522 4997 26575; CX 26575 4555 5061; CX 522 4555 26574;
  CX 4997 4555 26573; CA 26574 26573 26572; CX 26572 4555 4554; CX 521 4996 26571; CX 26571 4554 5060; CX 521 4554 26570; CX 4996 4554 26569; CA 26570 26569 26568;
  CX 26568 4554 4553; CX 520 4995 26567; CX 26567 4553 5059; CX 520 4553 26566; CX 4995 4553 26565; CA 26566 26565 26564; CX 26564 4553 4552; CX 519 4994 26563;
  CX 26563 4552 5058; CX 519 4552 26562; CX 4994 4552 26561; CA 26562 26561 26560; CX 26560 4552 4551; CX 518 4993 26559; CX 26559 4551 5057; CX 518 4551 26558;
  CX 4993 4551 26557; CA 26558 26557 26556; CX 26556 4551 4550; CX 517 4992 26555; CX 26555 4550 5056; CX 517 4550 26554; CX 4992 4550 26553; CA 26554 26553 26552;
  CX 26552 4550 4549; CX 516 4991 26551; CX 26551 4549 5055; CX 516 4549 26550; CX 4991 4549 26549; CA 26550 26549 26548; CX 26548 4549 4548; CX 515 4990 26547;
  CX 26547 4548 5054; CX 515 4548 26546; CX 4990 4548 26545; CA 26546 26545 26544; CX 26544 4548 4547; CX 514 4989 26543; CX 26543 4547 5053; CX 514 4547 26542;
  CX 4989 4547 26541; CA 26542 26541 26540; CX 26540 4547 4546; CX 513 4988 26539; CX 26539 4546 5052; CX 513 4546 26538; CX 4988 4546 26537; CA 26538 26537 26536;
  CX 26536 4546 4545; CX 512 4987 26535; CX 26535 4545 5051; CX 512 4545 26534; CX 4987 4545 26533; CA 26534 26533 26532; CX 26532 4545 4544; CX 511 4479 26531;
  CX 26531 4544 5050; CX 511 4544 26530; CX 4479 4544 26529; CA 26530 26529 26528; CX 26528 4544 4543; CX 637 5111 26527; CX 26527 4670 5175; CX 702 5175 28104;
  CA 702 5175 4734; CX 637 4670 26526; CX 5111 4670 26525; CA 26526 26525 26524; CX 26524 4670 4669; CX 636 5110 26523; CX 26523 4669 5174; CX 636 4669 26522;
  CX 5110 4669 26521; CA 26522 26521 26520; CX 26520 4669 4668; CX 635 5109 26519; CX 26519 4668 5173; CX 635 4668 26518; CX 5109 4668 26517; CA 26518 26517 26516;
  CX 26516 4668 4667; CX 634 5108 26515; CX 26515 4667 5172; CX 634 4667 26514; CX 5108 4667 26513; CA 26514 26513 26512; CX 26512 4667 4666; CX 633 5107 26511].
(** Lines 6405-6804 of the file. *)
Definition mult2_64_16 : list cg := [
  CX 26511 4666 5171; CX 633 4666 26510; CX 5107 4666 26509; CA 26510 26509 26508; CX 26508 4666 4665; CX 632 5106 26507; CX 26507 4665 5170; CX 632 4665 26506;
  CX 5106 4665 26505; CA 26506 26505 26504; CX 26504 4665 4664; CX 631 5105 26503; CX 26503 4664 5169; CX 631 4664 26502; CX 5105 4664 26501; CA 26502 26501 26500;
  CX 26500 4664 4663; CX 630 5104 26499; CX 26499 4663 5168; CX 630 4663 26498; CX 5104 4663 26497; CA 26498 26497 26496; CX 26496 4663 4662; CX 629 5103 26495;
  CX 26495 4662 5167; CX 629 4662 26494; CX 5103 4662 26493; CA 26494 26493 26492; CX 26492 4662 4661; CX 628 5102 26491; CX 26491 4661 5166; CX 628 4661 26490;
  CX 5102 4661 26489; CA 26490 26489 26488; CX 26488 4661 4660; CX 627 5101 26487; CX 26487 4660 5165; CX 627 4660 26486; CX 5101 4660 26485; CA 26486 26485 26484;
  CX 26484 4660 4659; CX 626 5100 26483; CX 26483 4659 5164; CX 626 4659 26482; CX 5100 4659 26481; CA 26482 26481 26480; CX 26480 4659 4658; CX 625 5099 26479;
  CX 26479 4658 5163; CX 625 4658 26478; CX 5099 4658 26477; CA 26478 26477 26476; CX 26476 4658 4657; CX 624 5098 26475; CX 26475 4657 5162; CX 624 4657 26474;
  CX 5098 4657 26473; CA 26474 26473 26472; CX 26472 4657 4656; CX 623 5097 26471; CX 26471 4656 5161; CX 623 4656 26470; CX 5097 4656 26469; CA 26470 26469 26468;
  CX 26468 4656 4655; CX 622 5096 26467; CX 26467 4655 5160; CX 622 4655 26466; CX 5096 4655 26465; CA 26466 26465 26464; CX 26464 4655 4654; CX 621 5095 26463;
  CX 26463 4654 5159; CX 621 4654 26462; CX 5095 4654 26461; CA 26462 26461 26460; CX 26460 4654 4653; CX 620 5094 26459; CX 26459 4653 5158; CX 620 4653 26458;
  CX 5094 4653 26457; CA 26458 26457 26456; CX 26456 4653 4652; CX 619 5093 26455; CX 26455 4652 5157; CX 619 4652 26454; CX 5093 4652 26453; CA 26454 26453 26452;
  CX 26452 4652 4651; CX 618 5092 26451; CX 26451 4651 5156; CX 618 4651 26450; CX 5092 4651 26449; CA 26450 26449 26448; CX 26448 4651 4650; CX 617 5091 26447;
  CX 26447 4650 5155; CX 617 4650 26446; CX 5091 4650 26445; CA 26446 26445 26444; CX 26444 4650 4649; CX 616 5090 26443; CX 26443 4649 5154; CX 616 4649 26442;
  CX 5090 4649 26441; CA 26442 26441 26440; CX 26440 4649 4648; CX 615 5089 26439; CX 26439 4648 5153; CX 615 4648 26438; CX 5089 4648 26437; CA 26438 26437 26436;
  CX 26436 4648 4647; CX 614 5088 26435; CX 26435 4647 5152; CX 614 4647 26434; CX 5088 4647 26433; CA 26434 26433 26432; CX 26432 4647 4646; CX 613 5087 26431;
  CX 26431 4646 5151; CX 613 4646 26430; CX 5087 4646 26429; CA 26430 26429 26428; CX 26428 4646 4645; CX 612 5086 26427; CX 26427 4645 5150; CX 612 4645 26426;
  CX 5086 4645 26425; CA 26426 26425 26424; CX 26424 4645 4644; CX 611 5085 26423; CX 26423 4644 5149; CX 611 4644 26422; CX 5085 4644 26421; CA 26422 26421 26420;
  CX 26420 4644 4643; CX 610 5084 26419; CX 26419 4643 5148; CX 610 4643 26418; CX 5084 4643 26417; CA 26418 26417 26416; CX 26416 4643 4642; CX 609 5083 26415;
  CX 26415 4642 5147; CX 609 4642 26414; CX 5083 4642 26413; CA 26414 26413 26412; CX 26412 4642 4641; CX 608 5082 26411; CX 26411 4641 5146; CX 608 4641 26410;
  CX 5082 4641 26409; CA 26410 26409 26408; CX 26408 4641 4640; CX 607 5081 26407; CX 26407 4640 5145; CX 607 4640 26406; CX 5081 4640 26405; CA 26406 26405 26404;
  CX 26404 4640 4639; CX 606 5080 26403; CX 26403 4639 5144; CX 606 4639 26402; CX 5080 4639 26401; CA 26402 26401 26400; CX 26400 4639 4638; CX 605 5079 26399;
  CX 26399 4638 5143; CX 605 4638 26398; CX 5079 4638 26397; CA 26398 26397 26396; CX 26396 4638 4637; CX 604 5078 26395; CX 26395 4637 5142; CX 604 4637 26394;
  CX 5078 4637 26393; CA 26394 26393 26392; CX 26392 4637 4636; CX 603 5077 26391; CX 26391 4636 5141; CX 603 4636 26390; CX 5077 4636 26389; CA 26390 26389 26388;
  CX 26388 4636 4635; CX 602 5076 26387; CX 26387 4635 5140; CX 602 4635 26386; CX 5076 4635 26385; CA 26386 26385 26384; CX 26384 4635 4634; CX 601 5075 26383;
  CX 26383 4634 5139; CX 601 4634 26382; CX 5075 4634 26381; CA 26382 26381 26380; CX 26380 4634 4633; CX 600 5074 26379; CX 26379 4633 5138; CX 600 4633 26378;
  CX 5074 4633 26377; CA 26378 26377 26376; CX 26376 4633 4632; CX 599 5073 26375; CX 26375 4632 5137; CX 599 4632 26374; CX 5073 4632 26373; CA 26374 26373 26372;
  CX 26372 4632 4631; CX 598 5072 26371; CX 26371 4631 5136; CX 598 4631 26370; CX 5072 4631 26369; CA 26370 26369 26368; CX 26368 4631 4630; CX 597 5071 26367;
  CX 26367 4630 5135; CX 597 4630 26366; CX 5071 4630 26365; CA 26366 26365 26364; CX 26364 4630 4629; CX 596 5070 26363; CX 26363 4629 5134; CX 596 4629 26362;
  CX 5070 4629 26361; CA 26362 26361 26360; CX 26360 4629 4628; CX 595 5069 26359; CX 26359 4628 5133; CX 595 4628 26358; CX 5069 4628 26357; CA 26358 26357 26356;
  CX 26356 4628 4627; CX 594 5068 26355; CX 26355 4627 5132; CX 594 4627 26354; CX 5068 4627 26353; CA 26354 26353 26352; CX 26352 4627 4626; CX 593 5067 26351;
  CX 26351 4626 5131; CX 593 4626 26350; CX 5067 4626 26349; CA 26350 26349 26348; CX 26348 4626 4625; CX 592 5066 26347; CX 26347 4625 5130; CX 592 4625 26346;
  CX 5066 4625 26345; CA 26346 26345 26344; CX 26344 4625 4624; CX 591 5065 26343; CX 26343 4624 5129; CX 591 4624 26342; CX 5065 4624 26341; CA 26342 26341 26340;
  CX 26340 4624 4623; CX 590 5064 26339; CX 26339 4623 5128; CX 590 4623 26338; CX 5064 4623 26337; CA 26338 26337 26336; CX 26336 4623 4622; CX 589 5063 26335;
  CX 26335 4622 5127; CX 589 4622 26334; CX 5063 4622 26333; CA 26334 26333 26332; CX 26332 4622 4621; CX 588 5062 26331; CX 26331 4621 5126; CX 588 4621 26330;
  CX 5062 4621 26329; CA 26330 26329 26328; CX 26328 4621 4620; CX 587 5061 26327; CX 26327 4620 5125; CX 587 4620 26326; CX 5061 4620 26325; CA 26326 26325 26324;
  CX 26324 4620 4619; CX 586 5060 26323; CX 26323 4619 5124; CX 586 4619 26322; CX 5060 4619 26321; CA 26322 26321 26320; CX 26320 4619 4618; CX 585 5059 26319;
  CX 26319 4618 5123; CX 585 4618 26318; CX 5059 4618 26317; CA 26318 26317 26316; CX 26316 4618 4617; CX 584 5058 26315; CX 26315 4617 5122; CX 584 4617 26314;
  CX 5058 4617 26313; CA 26314 26313 26312; CX 26312 4617 4616; CX 583 5057 26311; CX 26311 4616 5121; CX 583 4616 26310; CX 5057 4616 26309; CA 26310 26309 26308;
  CX 26308 4616 4615; CX 582 5056 26307; CX 26307 4615 5120; CX 582 4615 26306; CX 5056 4615 26305; CA 26306 26305 26304; CX 26304 4615 4614; CX 581 5055 26303;
  CX 26303 4614 5119; CX 581 4614 26302; CX 5055 4614 26301; CA 26302 26301 26300; CX 26300 4614 4613; CX 580 5054 26299; CX 26299 4613 5118; CX 580 4613 26298;
  CX 5054 4613 26297; CA 26298 26297 26296; CX 26296 4613 4612; CX 579 5053 26295; CX 26295 4612 5117; CX 579 4612 26294; CX 5053 4612 26293; CA 26294 26293 26292;
  CX 26292 4612 4611; CX 578 5052 26291; CX 26291 4611 5116; CX 578 4611 26290; CX 5052 4611 26289; CA 26290 26289 26288; CX 26288 4611 4610; CX 577 5051 26287;
  CX 26287 4610 5115; CX 577 4610 26286; CX 5051 4610 26285; CA 26286 26285 26284; CX 26284 4610 4609; CX 576 5050 26283; CX 26283 4609 5114; CX 576 4609 26282;
  CX 5050 4609 26281; CA 26282 26281 26280; CX 26280 4609 4608; CX 575 4543 26279; CX 26279 4608 5113; CX 575 4608 26278; CX 4543 4608 26277; CA 26278 26277 26276;
  CX 26276 4608 4607; CX 701 5174 26275; CX 26275 4734 5238; CX 766 5238 28105; CA 766 5238 5302; CX 701 4734 26274; CX 5174 4734 26273; CA 26274 26273 26272;
  CX 26272 4734 4733; CX 700 5173 26271; CX 26271 4733 5237; CX 700 4733 26270; CX 5173 4733 26269; CA 26270 26269 26268; CX 26268 4733 4732; CX 699 5172 26267;
  CX 26267 4732 5236; CX 699 4732 26266; CX 5172 4732 26265; CA 26266 26265 26264; CX 26264 4732 4731; CX 698 5171 26263; CX 26263 4731 5235; CX 698 4731 26262;
  CX 5171 4731 26261; CA 26262 26261 26260; CX 26260 4731 4730; CX 697 5170 26259; CX 26259 4730 5234; CX 697 4730 26258; CX 5170 4730 26257; CA 26258 26257 26256;
  CX 26256 4730 4729; CX 696 5169 26255; CX 26255 4729 5233; CX 696 4729 26254; CX 5169 4729 26253; CA 26254 26253 26252; CX 26252 4729 4728; CX 695 5168 26251;
  CX 26251 4728 5232; CX 695 4728 26250; CX 5168 4728 26249; CA 26250 26249 26248; CX 26248 4728 4727; CX 694 5167 26247; CX 26247 4727 5231; CX 694 4727 26246].
(** Lines 6805-7204 of the file. *)
Definition mult2_64_17 : list cg := [
  CX 5167 4727 26245; CA 26246 26245 26244; CX 26244 4727 4726; CX 693 5166 26243; CX 26243 4726 5230; CX 693 4726 26242; CX 5166 4726 26241; CA 26242 26241 26240;
  CX 26240 4726 4725; CX 692 5165 26239; CX 26239 4725 5229; CX 692 4725 26238; CX 5165 4725 26237; CA 26238 26237 26236; CX 26236 4725 4724; CX 691 5164 26235;
  CX 26235 4724 5228; CX 691 4724 26234; CX 5164 4724 26233; CA 26234 26233 26232; CX 26232 4724 4723; CX 690 5163 26231; CX 26231 4723 5227; CX 690 4723 26230;
  CX 5163 4723 26229; CA 26230 26229 26228; CX 26228 4723 4722; CX 689 5162 26227; CX 26227 4722 5226; CX 689 4722 26226; CX 5162 4722 26225; CA 26226 26225 26224;
  CX 26224 4722 4721; CX 688 5161 26223; CX 26223 4721 5225; CX 688 4721 26222; CX 5161 4721 26221; CA 26222 26221 26220; CX 26220 4721 4720; CX 687 5160 26219;
  CX 26219 4720 5224; CX 687 4720 26218; CX 5160 4720 26217; CA 26218 26217 26216; CX 26216 4720 4719; CX 686 5159 26215; CX 26215 4719 5223; CX 686 4719 26214;
  CX 5159 4719 26213; CA 26214 26213 26212; CX 26212 4719 4718; CX 685 5158 26211; CX 26211 4718 5222; CX 685 4718 26210; CX 5158 4718 26209; CA 26210 26209 26208;
  CX 26208 4718 4717; CX 684 5157 26207; CX 26207 4717 5221; CX 684 4717 26206; CX 5157 4717 26205; CA 26206 26205 26204; CX 26204 4717 4716; CX 683 5156 26203;
  CX 26203 4716 5220; CX 683 4716 26202; CX 5156 4716 26201; CA 26202 26201 26200; CX 26200 4716 4715; CX 682 5155 26199; CX 26199 4715 5219; CX 682 4715 26198;
  CX 5155 4715 26197; CA 26198 26197 26196; CX 26196 4715 4714; CX 681 5154 26195; CX 26195 4714 5218; CX 681 4714 26194; CX 5154 4714 26193; CA 26194 26193 26192;
  CX 26192 4714 4713; CX 680 5153 26191; CX 26191 4713 5217; CX 680 4713 26190; CX 5153 4713 26189; CA 26190 26189 26188; CX 26188 4713 4712; CX 679 5152 26187;
  CX 26187 4712 5216; CX 679 4712 26186; CX 5152 4712 26185; CA 26186 26185 26184; CX 26184 4712 4711; CX 678 5151 26183; CX 26183 4711 5215; CX 678 4711 26182;
  CX 5151 4711 26181; CA 26182 26181 26180; CX 26180 4711 4710; CX 677 5150 26179; CX 26179 4710 5214; CX 677 4710 26178; CX 5150 4710 26177; CA 26178 26177 26176;
  CX 26176 4710 4709; CX 676 5149 26175; CX 26175 4709 5213; CX 676 4709 26174; CX 5149 4709 26173; CA 26174 26173 26172; CX 26172 4709 4708; CX 675 5148 26171;
  CX 26171 4708 5212; CX 675 4708 26170; CX 5148 4708 26169; CA 26170 26169 26168; CX 26168 4708 4707; CX 674 5147 26167; CX 26167 4707 5211; CX 674 4707 26166;
  CX 5147 4707 26165; CA 26166 26165 26164; CX 26164 4707 4706; CX 673 5146 26163; CX 26163 4706 5210; CX 673 4706 26162; CX 5146 4706 26161; CA 26162 26161 26160;
  CX 26160 4706 4705; CX 672 5145 26159; CX 26159 4705 5209; CX 672 4705 26158; CX 5145 4705 26157; CA 26158 26157 26156; CX 26156 4705 4704; CX 671 5144 26155;
  CX 26155 4704 5208; CX 671 4704 26154; CX 5144 4704 26153; CA 26154 26153 26152; CX 26152 4704 4703; CX 670 5143 26151; CX 26151 4703 5207; CX 670 4703 26150;
  CX 5143 4703 26149; CA 26150 26149 26148; CX 26148 4703 4702; CX 669 5142 26147; CX 26147 4702 5206; CX 669 4702 26146; CX 5142 4702 26145; CA 26146 26145 26144;
  CX 26144 4702 4701; CX 668 5141 26143; CX 26143 4701 5205; CX 668 4701 26142; CX 5141 4701 26141; CA 26142 26141 26140; CX 26140 4701 4700; CX 667 5140 26139;
  CX 26139 4700 5204; CX 667 4700 26138; CX 5140 4700 26137; CA 26138 26137 26136; CX 26136 4700 4699; CX 666 5139 26135; CX 26135 4699 5203; CX 666 4699 26134;
  CX 5139 4699 26133; CA 26134 26133 26132; CX 26132 4699 4698; CX 665 5138 26131; CX 26131 4698 5202; CX 665 4698 26130; CX 5138 4698 26129; CA 26130 26129 26128;
  CX 26128 4698 4697; CX 664 5137 26127; CX 26127 4697 5201; CX 664 4697 26126; CX 5137 4697 26125; CA 26126 26125 26124; CX 26124 4697 4696; CX 663 5136 26123;
  CX 26123 4696 5200; CX 663 4696 26122; CX 5136 4696 26121; CA 26122 26121 26120; CX 26120 4696 4695; CX 662 5135 26119; CX 26119 4695 5199; CX 662 4695 26118;
  CX 5135 4695 26117; CA 26118 26117 26116; CX 26116 4695 4694; CX 661 5134 26115; CX 26115 4694 5198; CX 661 4694 26114; CX 5134 4694 26113; CA 26114 26113 26112;
  CX 26112 4694 4693; CX 660 5133 26111; CX 26111 4693 5197; CX 660 4693 26110; CX 5133 4693 26109; CA 26110 26109 26108; CX 26108 4693 4692; CX 659 5132 26107;
  CX 26107 4692 5196; CX 659 4692 26106; CX 5132 4692 26105; CA 26106 26105 26104; CX 26104 4692 4691; CX 658 5131 26103; CX 26103 4691 5195; CX 658 4691 26102;
  CX 5131 4691 26101; CA 26102 26101 26100; CX 26100 4691 4690; CX 657 5130 26099; CX 26099 4690 5194; CX 657 4690 26098; CX 5130 4690 26097; CA 26098 26097 26096;
  CX 26096 4690 4689; CX 656 5129 26095; CX 26095 4689 5193; CX 656 4689 26094; CX 5129 4689 26093; CA 26094 26093 26092; CX 26092 4689 4688; CX 655 5128 26091;
  CX 26091 4688 5192; CX 655 4688 26090; CX 5128 4688 26089; CA 26090 26089 26088; CX 26088 4688 4687; CX 654 5127 26087; CX 26087 4687 5191; CX 654 4687 26086;
  CX 5127 4687 26085; CA 26086 26085 26084; CX 26084 4687 4686; CX 653 5126 26083; CX 26083 4686 5190; CX 653 4686 26082; CX 5126 4686 26081; CA 26082 26081 26080;
  CX 26080 4686 4685; CX 652 5125 26079; CX 26079 4685 5189; CX 652 4685 26078; CX 5125 4685 26077; CA 26078 26077 26076; CX 26076 4685 4684; CX 651 5124 26075;
  CX 26075 4684 5188; CX 651 4684 26074; CX 5124 4684 26073; CA 26074 26073 26072; CX 26072 4684 4683; CX 650 5123 26071; CX 26071 4683 5187; CX 650 4683 26070;
  CX 5123 4683 26069; CA 26070 26069 26068; CX 26068 4683 4682; CX 649 5122 26067; CX 26067 4682 5186; CX 649 4682 26066; CX 5122 4682 26065; CA 26066 26065 26064;
  CX 26064 4682 4681; CX 648 5121 26063; CX 26063 4681 5185; CX 648 4681 26062; CX 5121 4681 26061; CA 26062 26061 26060; CX 26060 4681 4680; CX 647 5120 26059;
  CX 26059 4680 5184; CX 647 4680 26058; CX 5120 4680 26057; CA 26058 26057 26056; CX 26056 4680 4679; CX 646 5119 26055; CX 26055 4679 5183; CX 646 4679 26054;
  CX 5119 4679 26053; CA 26054 26053 26052; CX 26052 4679 4678; CX 645 5118 26051; CX 26051 4678 5182; CX 645 4678 26050; CX 5118 4678 26049; CA 26050 26049 26048;
  CX 26048 4678 4677; CX 644 5117 26047; CX 26047 4677 5181; CX 644 4677 26046; CX 5117 4677 26045; CA 26046 26045 26044; CX 26044 4677 4676; CX 643 5116 26043;
  CX 26043 4676 5180; CX 643 4676 26042; CX 5116 4676 26041; CA 26042 26041 26040; CX 26040 4676 4675; CX 642 5115 26039; CX 26039 4675 5179; CX 642 4675 26038;
  CX 5115 4675 26037; CA 26038 26037 26036; CX 26036 4675 4674; CX 641 5114 26035; CX 26035 4674 5178; CX 641 4674 26034; CX 5114 4674 26033; CA 26034 26033 26032;
  CX 26032 4674 4673; CX 640 5113 26031; CX 26031 4673 5177; CX 640 4673 26030; CX 5113 4673 26029; CA 26030 26029 26028; CX 26028 4673 4672; CX 639 4607 26027;
  CX 26027 4672 5176; CX 639 4672 26026; CX 4607 4672 26025; CA 26026 26025 26024; CX 26024 4672 4671; CX 765 5237 26023; CX 26023 5302 5813; CX 830 5813 28106;
  CA 830 5813 5366; CX 765 5302 26022; CX 5237 5302 26021; CA 26022 26021 26020; CX 26020 5302 5301; CX 764 5236 26019; CX 26019 5301 5812; CX 764 5301 26018;
  CX 5236 5301 26017; CA 26018 26017 26016; CX 26016 5301 5300; CX 763 5235 26015; CX 26015 5300 5811; CX 763 5300 26014; CX 5235 5300 26013; CA 26014 26013 26012;
  CX 26012 5300 5299; CX 762 5234 26011; CX 26011 5299 5810; CX 762 5299 26010; CX 5234 5299 26009; CA 26010 26009 26008; CX 26008 5299 5298; CX 761 5233 26007;
  CX 26007 5298 5809; CX 761 5298 26006; CX 5233 5298 26005; CA 26006 26005 26004; CX 26004 5298 5297; CX 760 5232 26003; CX 26003 5297 5808; CX 760 5297 26002;
  CX 5232 5297 26001; CA 26002 26001 26000; CX 26000 5297 5296; CX 759 5231 25999; CX 25999 5296 5807; CX 759 5296 25998; CX 5231 5296 25997; CA 25998 25997 25996;
  CX 25996 5296 5295; CX 758 5230 25995; CX 25995 5295 5806; CX 758 5295 25994; CX 5230 5295 25993; CA 25994 25993 25992; CX 25992 5295 5294; CX 757 5229 25991;
  CX 25991 5294 5805; CX 757 5294 25990; CX 5229 5294 25989; CA 25990 25989 25988; CX 25988 5294 5293; CX 756 5228 25987; CX 25987 5293 5804; CX 756 5293 25986;
  CX 5228 5293 25985; CA 25986 25985 25984; CX 25984 5293 5292; CX 755 5227 25983; CX 25983 5292 5803; CX 755 5292 25982; CX 5227 5292 25981; CA 25982 25981 25980].
(** Lines 7205-7604 of the file. *)
Definition mult2_64_18 : list cg := [
  CX 25980 5292 5291; CX 754 5226 25979; CX 25979 5291 5802; CX 754 5291 25978; CX 5226 5291 25977; CA 25978 25977 25976; CX 25976 5291 5290; CX 753 5225 25975;
  CX 25975 5290 5801; CX 753 5290 25974; CX 5225 5290 25973; CA 25974 25973 25972; CX 25972 5290 5289; CX 752 5224 25971; CX 25971 5289 5800; CX 752 5289 25970;
  CX 5224 5289 25969; CA 25970 25969 25968; CX 25968 5289 5288; CX 751 5223 25967; CX 25967 5288 5799; CX 751 5288 25966; CX 5223 5288 25965; CA 25966 25965 25964;
  CX 25964 5288 5287; CX 750 5222 25963; CX 25963 5287 5798; CX 750 5287 25962; CX 5222 5287 25961; CA 25962 25961 25960; CX 25960 5287 5286; CX 749 5221 25959;
  CX 25959 5286 5797; CX 749 5286 25958; CX 5221 5286 25957; CA 25958 25957 25956; CX 25956 5286 5285; CX 748 5220 25955; CX 25955 5285 5796; CX 748 5285 25954;
  CX 5220 5285 25953; CA 25954 25953 25952; CX 25952 5285 5284; CX 747 5219 25951; CX 25951 5284 5795; CX 747 5284 25950; CX 5219 5284 25949; CA 25950 25949 25948;
  CX 25948 5284 5283; CX 746 5218 25947; CX 25947 5283 5794; CX 746 5283 25946; CX 5218 5283 25945; CA 25946 25945 25944; CX 25944 5283 5282; CX 745 5217 25943;
  CX 25943 5282 5793; CX 745 5282 25942; CX 5217 5282 25941; CA 25942 25941 25940; CX 25940 5282 5281; CX 744 5216 25939; CX 25939 5281 5792; CX 744 5281 25938;
  CX 5216 5281 25937; CA 25938 25937 25936; CX 25936 5281 5280; CX 743 5215 25935; CX 25935 5280 5791; CX 743 5280 25934; CX 5215 5280 25933; CA 25934 25933 25932;
  CX 25932 5280 5279; CX 742 5214 25931; CX 25931 5279 5790; CX 742 5279 25930; CX 5214 5279 25929; CA 25930 25929 25928; CX 25928 5279 5278; CX 741 5213 25927;
  CX 25927 5278 5789; CX 741 5278 25926; CX 5213 5278 25925; CA 25926 25925 25924; CX 25924 5278 5277; CX 740 5212 25923; CX 25923 5277 5788; CX 740 5277 25922;
  CX 5212 5277 25921; CA 25922 25921 25920; CX 25920 5277 5276; CX 739 5211 25919; CX 25919 5276 5787; CX 739 5276 25918; CX 5211 5276 25917; CA 25918 25917 25916;
  CX 25916 5276 5275; CX 738 5210 25915; CX 25915 5275 5786; CX 738 5275 25914; CX 5210 5275 25913; CA 25914 25913 25912; CX 25912 5275 5274; CX 737 5209 25911;
  CX 25911 5274 5785; CX 737 5274 25910; CX 5209 5274 25909; CA 25910 25909 25908; CX 25908 5274 5273; CX 736 5208 25907; CX 25907 5273 5784; CX 736 5273 25906;
  CX 5208 5273 25905; CA 25906 25905 25904; CX 25904 5273 5272; CX 735 5207 25903; CX 25903 5272 5783; CX 735 5272 25902; CX 5207 5272 25901; CA 25902 25901 25900;
  CX 25900 5272 5271; CX 734 5206 25899; CX 25899 5271 5782; CX 734 5271 25898; CX 5206 5271 25897; CA 25898 25897 25896; CX 25896 5271 5270; CX 733 5205 25895;
  CX 25895 5270 5781; CX 733 5270 25894; CX 5205 5270 25893; CA 25894 25893 25892; CX 25892 5270 5269; CX 732 5204 25891; CX 25891 5269 5780; CX 732 5269 25890;
  CX 5204 5269 25889; CA 25890 25889 25888; CX 25888 5269 5268; CX 731 5203 25887; CX 25887 5268 5779; CX 731 5268 25886; CX 5203 5268 25885; CA 25886 25885 25884;
  CX 25884 5268 5267; CX 730 5202 25883; CX 25883 5267 5778; CX 730 5267 25882; CX 5202 5267 25881; CA 25882 25881 25880; CX 25880 5267 5266; CX 729 5201 25879;
  CX 25879 5266 5777; CX 729 5266 25878; CX 5201 5266 25877; CA 25878 25877 25876; CX 25876 5266 5265; CX 728 5200 25875; CX 25875 5265 5776; CX 728 5265 25874;
  CX 5200 5265 25873; CA 25874 25873 25872; CX 25872 5265 5264; CX 727 5199 25871; CX 25871 5264 5775; CX 727 5264 25870; CX 5199 5264 25869; CA 25870 25869 25868;
  CX 25868 5264 5263; CX 726 5198 25867; CX 25867 5263 5774; CX 726 5263 25866; CX 5198 5263 25865; CA 25866 25865 25864; CX 25864 5263 5262; CX 725 5197 25863;
  CX 25863 5262 5773; CX 725 5262 25862; CX 5197 5262 25861; CA 25862 25861 25860; CX 25860 5262 5261; CX 724 5196 25859; CX 25859 5261 5772; CX 724 5261 25858;
  CX 5196 5261 25857; CA 25858 25857 25856; CX 25856 5261 5260; CX 723 5195 25855; CX 25855 5260 5771; CX 723 5260 25854; CX 5195 5260 25853; CA 25854 25853 25852;
  CX 25852 5260 5259; CX 722 5194 25851; CX 25851 5259 5770; CX 722 5259 25850; CX 5194 5259 25849; CA 25850 25849 25848; CX 25848 5259 5258; CX 721 5193 25847;
  CX 25847 5258 5769; CX 721 5258 25846; CX 5193 5258 25845; CA 25846 25845 25844; CX 25844 5258 5257; CX 720 5192 25843; CX 25843 5257 5768; CX 720 5257 25842;
  CX 5192 5257 25841; CA 25842 25841 25840; CX 25840 5257 5256; CX 719 5191 25839; CX 25839 5256 5767; CX 719 5256 25838; CX 5191 5256 25837; CA 25838 25837 25836;
  CX 25836 5256 5255; CX 718 5190 25835; CX 25835 5255 5766; CX 718 5255 25834; CX 5190 5255 25833; CA 25834 25833 25832; CX 25832 5255 5254; CX 717 5189 25831;
  CX 25831 5254 5765; CX 717 5254 25830; CX 5189 5254 25829; CA 25830 25829 25828; CX 25828 5254 5253; CX 716 5188 25827; CX 25827 5253 5764; CX 716 5253 25826;
  CX 5188 5253 25825; CA 25826 25825 25824; CX 25824 5253 5252; CX 715 5187 25823; CX 25823 5252 5763; CX 715 5252 25822; CX 5187 5252 25821; CA 25822 25821 25820;
  CX 25820 5252 5251; CX 714 5186 25819; CX 25819 5251 5762; CX 714 5251 25818; CX 5186 5251 25817; CA 25818 25817 25816; CX 25816 5251 5250; CX 713 5185 25815;
  CX 25815 5250 5761; CX 713 5250 25814; CX 5185 5250 25813; CA 25814 25813 25812; CX 25812 5250 5249; CX 712 5184 25811; CX 25811 5249 5760; CX 712 5249 25810;
  CX 5184 5249 25809; CA 25810 25809 25808; CX 25808 5249 5248; CX 711 5183 25807; CX 25807 5248 5759; CX 711 5248 25806; CX 5183 5248 25805; CA 25806 25805 25804;
  CX 25804 5248 5247; CX 710 5182 25803; CX 25803 5247 5758; CX 710 5247 25802; CX 5182 5247 25801; CA 25802 25801 25800; CX 25800 5247 5246; CX 709 5181 25799;
  CX 25799 5246 5757; CX 709 5246 25798; CX 5181 5246 25797; CA 25798 25797 25796; CX 25796 5246 5245; CX 708 5180 25795; CX 25795 5245 5756; CX 708 5245 25794;
  CX 5180 5245 25793; CA 25794 25793 25792; CX 25792 5245 5244; CX 707 5179 25791; CX 25791 5244 5755; CX 707 5244 25790; CX 5179 5244 25789; CA 25790 25789 25788;
  CX 25788 5244 5243; CX 706 5178 25787; CX 25787 5243 5754; CX 706 5243 25786; CX 5178 5243 25785; CA 25786 25785 25784; CX 25784 5243 5242; CX 705 5177 25783;
  CX 25783 5242 5753; CX 705 5242 25782; CX 5177 5242 25781; CA 25782 25781 25780; CX 25780 5242 5241; CX 704 5176 25779; CX 25779 5241 5752; CX 704 5241 25778;
  CX 5176 5241 25777; CA 25778 25777 25776; CX 25776 5241 5240; CX 703 4671 25775; CX 25775 5240 5751; CX 703 5240 25774; CX 4671 5240 25773; CA 25774 25773 25772;
  CX 25772 5240 5239; CX 829 5812 25771; CX 25771 5366 5876; CX 894 5876 28107; CA 894 5876 5430; CX 829 5366 25770; CX 5812 5366 25769; CA 25770 25769 25768;
  CX 25768 5366 5365; CX 828 5811 25767; CX 25767 5365 5875; CX 828 5365 25766; CX 5811 5365 25765; CA 25766 25765 25764; CX 25764 5365 5364; CX 827 5810 25763;
  CX 25763 5364 5874; CX 827 5364 25762; CX 5810 5364 25761; CA 25762 25761 25760; CX 25760 5364 5363; CX 826 5809 25759; CX 25759 5363 5873; CX 826 5363 25758;
  CX 5809 5363 25757; CA 25758 25757 25756; CX 25756 5363 5362; CX 825 5808 25755; CX 25755 5362 5872; CX 825 5362 25754; CX 5808 5362 25753; CA 25754 25753 25752;
  CX 25752 5362 5361; CX 824 5807 25751; CX 25751 5361 5871; CX 824 5361 25750; CX 5807 5361 25749; CA 25750 25749 25748; CX 25748 5361 5360; CX 823 5806 25747;
  CX 25747 5360 5870; CX 823 5360 25746; CX 5806 5360 25745; CA 25746 25745 25744; CX 25744 5360 5359; CX 822 5805 25743; CX 25743 5359 5869; CX 822 5359 25742;
  CX 5805 5359 25741; CA 25742 25741 25740; CX 25740 5359 5358; CX 821 5804 25739; CX 25739 5358 5868; CX 821 5358 25738; CX 5804 5358 25737; CA 25738 25737 25736;
  CX 25736 5358 5357; CX 820 5803 25735; CX 25735 5357 5867; CX 820 5357 25734; CX 5803 5357 25733; CA 25734 25733 25732; CX 25732 5357 5356; CX 819 5802 25731;
  CX 25731 5356 5866; CX 819 5356 25730; CX 5802 5356 25729; CA 25730 25729 25728; CX 25728 5356 5355; CX 818 5801 25727; CX 25727 5355 5865; CX 818 5355 25726;
  CX 5801 5355 25725; CA 25726 25725 25724; CX 25724 5355 5354; CX 817 5800 25723; CX 25723 5354 5864; CX 817 5354 25722; CX 5800 5354 25721; CA 25722 25721 25720;
  CX 25720 5354 5353; CX 816 5799 25719; CX 25719 5353 5863; CX 816 5353 25718; CX 5799 5353 25717; CA 25718 25717 25716; CX 25716 5353 5352; CX 815 5798 25715].
(** Lines 7605-8004 of the file. *)
Definition mult2_64_19 : list cg := [
  CX 25715 5352 5862; CX 815 5352 25714; CX 5798 5352 25713; CA 25714 25713 25712; CX 25712 5352 5351; CX 814 5797 25711; CX 25711 5351 5861; CX 814 5351 25710;
  CX 5797 5351 25709; CA 25710 25709 25708; CX 25708 5351 5350; CX 813 5796 25707; CX 25707 5350 5860; CX 813 5350 25706; CX 5796 5350 25705; CA 25706 25705 25704;
  CX 25704 5350 5349; CX 812 5795 25703; CX 25703 5349 5859; CX 812 5349 25702; CX 5795 5349 25701; CA 25702 25701 25700; CX 25700 5349 5348; CX 811 5794 25699;
  CX 25699 5348 5858; CX 811 5348 25698; CX 5794 5348 25697; CA 25698 25697 25696; CX 25696 5348 5347; CX 810 5793 25695; CX 25695 5347 5857; CX 810 5347 25694;
  CX 5793 5347 25693; CA 25694 25693 25692; CX 25692 5347 5346; CX 809 5792 25691; CX 25691 5346 5856; CX 809 5346 25690; CX 5792 5346 25689; CA 25690 25689 25688;
  CX 25688 5346 5345; CX 808 5791 25687; CX 25687 5345 5855; CX 808 5345 25686; CX 5791 5345 25685; CA 25686 25685 25684; CX 25684 5345 5344; CX 807 5790 25683;
  CX 25683 5344 5854; CX 807 5344 25682; CX 5790 5344 25681; CA 25682 25681 25680; CX 25680 5344 5343; CX 806 5789 25679; CX 25679 5343 5853; CX 806 5343 25678;
  CX 5789 5343 25677; CA 25678 25677 25676; CX 25676 5343 5342; CX 805 5788 25675; CX 25675 5342 5852; CX 805 5342 25674; CX 5788 5342 25673; CA 25674 25673 25672;
  CX 25672 5342 5341; CX 804 5787 25671; CX 25671 5341 5851; CX 804 5341 25670; CX 5787 5341 25669; CA 25670 25669 25668; CX 25668 5341 5340; CX 803 5786 25667;
  CX 25667 5340 5850; CX 803 5340 25666; CX 5786 5340 25665; CA 25666 25665 25664; CX 25664 5340 5339; CX 802 5785 25663; CX 25663 5339 5849; CX 802 5339 25662;
  CX 5785 5339 25661; CA 25662 25661 25660; CX 25660 5339 5338; CX 801 5784 25659; CX 25659 5338 5848; CX 801 5338 25658; CX 5784 5338 25657; CA 25658 25657 25656;
  CX 25656 5338 5337; CX 800 5783 25655; CX 25655 5337 5847; CX 800 5337 25654; CX 5783 5337 25653; CA 25654 25653 25652; CX 25652 5337 5336; CX 799 5782 25651;
  CX 25651 5336 5846; CX 799 5336 25650; CX 5782 5336 25649; CA 25650 25649 25648; CX 25648 5336 5335; CX 798 5781 25647; CX 25647 5335 5845; CX 798 5335 25646;
  CX 5781 5335 25645; CA 25646 25645 25644; CX 25644 5335 5334; CX 797 5780 25643; CX 25643 5334 5844; CX 797 5334 25642; CX 5780 5334 25641; CA 25642 25641 25640;
  CX 25640 5334 5333; CX 796 5779 25639; CX 25639 5333 5843; CX 796 5333 25638; CX 5779 5333 25637; CA 25638 25637 25636; CX 25636 5333 5332; CX 795 5778 25635;
  CX 25635 5332 5842; CX 795 5332 25634; CX 5778 5332 25633; CA 25634 25633 25632; CX 25632 5332 5331; CX 794 5777 25631; CX 25631 5331 5841; CX 794 5331 25630;
  CX 5777 5331 25629; CA 25630 25629 25628; CX 25628 5331 5330; CX 793 5776 25627; CX 25627 5330 5840; CX 793 5330 25626; CX 5776 5330 25625; CA 25626 25625 25624;
  CX 25624 5330 5329; CX 792 5775 25623; CX 25623 5329 5839; CX 792 5329 25622; CX 5775 5329 25621; CA 25622 25621 25620; CX 25620 5329 5328; CX 791 5774 25619;
  CX 25619 5328 5838; CX 791 5328 25618; CX 5774 5328 25617; CA 25618 25617 25616; CX 25616 5328 5327; CX 790 5773 25615; CX 25615 5327 5837; CX 790 5327 25614;
  CX 5773 5327 25613; CA 25614 25613 25612; CX 25612 5327 5326; CX 789 5772 25611; CX 25611 5326 5836; CX 789 5326 25610; CX 5772 5326 25609; CA 25610 25609 25608;
  CX 25608 5326 5325; CX 788 5771 25607; CX 25607 5325 5835; CX 788 5325 25606; CX 5771 5325 25605; CA 25606 25605 25604; CX 25604 5325 5324; CX 787 5770 25603;
  CX 25603 5324 5834; CX 787 5324 25602; CX 5770 5324 25601; CA 25602 25601 25600; CX 25600 5324 5323; CX 786 5769 25599; CX 25599 5323 5833; CX 786 5323 25598;
  CX 5769 5323 25597; CA 25598 25597 25596; CX 25596 5323 5322; CX 785 5768 25595; CX 25595 5322 5832; CX 785 5322 25594; CX 5768 5322 25593; CA 25594 25593 25592;
  CX 25592 5322 5321; CX 784 5767 25591; CX 25591 5321 5831; CX 849 5831 25343; CX 784 5321 25590; CX 5767 5321 25589; CA 25590 25589 25588; CX 25588 5321 5320;
  CX 783 5766 25587; CX 25587 5320 5830; CX 848 5830 25339; CX 783 5320 25586; CX 5766 5320 25585; CA 25586 25585 25584; CX 25584 5320 5319; CX 782 5765 25583;
  CX 25583 5319 5829; CX 847 5829 25335; CX 782 5319 25582; CX 5765 5319 25581; CA 25582 25581 25580; CX 25580 5319 5318; CX 781 5764 25579; CX 25579 5318 5828;
  CX 846 5828 25331; CX 781 5318 25578; CX 5764 5318 25577; CA 25578 25577 25576; CX 25576 5318 5317; CX 780 5763 25575; CX 25575 5317 5827; CX 845 5827 25327;
  CX 780 5317 25574; CX 5763 5317 25573; CA 25574 25573 25572; CX 25572 5317 5316; CX 779 5762 25571; CX 25571 5316 5826; CX 844 5826 25323; CX 779 5316 25570;
  CX 5762 5316 25569; CA 25570 25569 25568; CX 25568 5316 5315; CX 778 5761 25567; CX 25567 5315 5825; CX 843 5825 25319; CX 778 5315 25566; CX 5761 5315 25565;
  CA 25566 25565 25564; CX 25564 5315 5314; CX 777 5760 25563; CX 25563 5314 5824; CX 842 5824 25315; CX 777 5314 25562; CX 5760 5314 25561; CA 25562 25561 25560;
  CX 25560 5314 5313; CX 776 5759 25559; CX 25559 5313 5823; CX 841 5823 25311; CX 776 5313 25558; CX 5759 5313 25557; CA 25558 25557 25556; CX 25556 5313 5312;
  CX 775 5758 25555; CX 25555 5312 5822; CX 840 5822 25307; CX 775 5312 25554; CX 5758 5312 25553; CA 25554 25553 25552; CX 25552 5312 5311; CX 774 5757 25551;
  CX 25551 5311 5821; CX 839 5821 25303; CX 774 5311 25550; CX 5757 5311 25549; CA 25550 25549 25548; CX 25548 5311 5310; CX 773 5756 25547; CX 25547 5310 5820;
  CX 838 5820 25299; CX 773 5310 25546; CX 5756 5310 25545; CA 25546 25545 25544; CX 25544 5310 5309; CX 772 5755 25543; CX 25543 5309 5819; CX 837 5819 25295;
  CX 772 5309 25542; CX 5755 5309 25541; CA 25542 25541 25540; CX 25540 5309 5308; CX 771 5754 25539; CX 25539 5308 5818; CX 836 5818 25291; CX 771 5308 25538;
  CX 5754 5308 25537; CA 25538 25537 25536; CX 25536 5308 5307; CX 770 5753 25535; CX 25535 5307 5817; CX 835 5817 25287; CX 770 5307 25534; CX 5753 5307 25533;
  CA 25534 25533 25532; CX 25532 5307 5306; CX 769 5752 25531; CX 25531 5306 5816; CX 834 5816 25283; CX 769 5306 25530; CX 5752 5306 25529; CA 25530 25529 25528;
  CX 25528 5306 5305; CX 768 5751 25527; CX 25527 5305 5815; CX 833 5815 25279; CX 768 5305 25526; CX 5751 5305 25525; CA 25526 25525 25524; CX 25524 5305 5304;
  CX 767 5239 25523; CX 25523 5304 5814; CX 832 5814 25275; CX 767 5304 25522; CX 5239 5304 25521; CA 25522 25521 25520; CX 25520 5304 5303; CX 831 5303 25271;
  CX 893 5875 25519; CX 25519 5430 5939; CX 958 5939 28108; CA 958 5939 5494; CX 893 5430 25518; CX 5875 5430 25517; CA 25518 25517 25516; CX 25516 5430 5429;
  CX 892 5874 25515; CX 25515 5429 5938; CX 5938 5494 25265; CX 957 5938 25267; CX 892 5429 25514; CX 5874 5429 25513; CA 25514 25513 25512; CX 25512 5429 5428;
  CX 891 5873 25511; CX 25511 5428 5937; CX 956 5937 25263; CX 891 5428 25510; CX 5873 5428 25509; CA 25510 25509 25508; CX 25508 5428 5427; CX 890 5872 25507;
  CX 25507 5427 5936; CX 955 5936 25259; CX 890 5427 25506; CX 5872 5427 25505; CA 25506 25505 25504; CX 25504 5427 5426; CX 889 5871 25503; CX 25503 5426 5935;
  CX 954 5935 25255; CX 889 5426 25502; CX 5871 5426 25501; CA 25502 25501 25500; CX 25500 5426 5425; CX 888 5870 25499; CX 25499 5425 5934; CX 953 5934 25251;
  CX 888 5425 25498; CX 5870 5425 25497; CA 25498 25497 25496; CX 25496 5425 5424; CX 887 5869 25495; CX 25495 5424 5933; CX 952 5933 25247; CX 887 5424 25494;
  CX 5869 5424 25493; CA 25494 25493 25492; CX 25492 5424 5423; CX 886 5868 25491; CX 25491 5423 5932; CX 951 5932 25243; CX 886 5423 25490; CX 5868 5423 25489;
  CA 25490 25489 25488; CX 25488 5423 5422; CX 885 5867 25487; CX 25487 5422 5931; CX 950 5931 25239; CX 885 5422 25486; CX 5867 5422 25485; CA 25486 25485 25484;
  CX 25484 5422 5421; CX 884 5866 25483; CX 25483 5421 5930; CX 949 5930 25235; CX 884 5421 25482; CX 5866 5421 25481; CA 25482 25481 25480; CX 25480 5421 5420;
  CX 883 5865 25479; CX 25479 5420 5929; CX 948 5929 25231; CX 883 5420 25478; CX 5865 5420 25477; CA 25478 25477 25476; CX 25476 5420 5419; CX 882 5864 25475;
  CX 25475 5419 5928; CX 947 5928 25227; CX 882 5419 25474; CX 5864 5419 25473; CA 25474 25473 25472; CX 25472 5419 5418; CX 881 5863 25471; CX 25471 5418 5927].
(** Lines 8005-8404 of the file. *)
Definition mult2_64_20 : list cg := [
  CX 946 5927 25223; CX 881 5418 25470; CX 5863 5418 25469; CA 25470 25469 25468; CX 25468 5418 5417; CX 880 5862 25467; CX 25467 5417 5926; CX 945 5926 25219;
  CX 880 5417 25466; CX 5862 5417 25465; CA 25466 25465 25464; CX 25464 5417 5416; CX 879 5861 25463; CX 25463 5416 5925; CX 944 5925 25215; CX 879 5416 25462;
  CX 5861 5416 25461; CA 25462 25461 25460; CX 25460 5416 5415; CX 878 5860 25459; CX 25459 5415 5924; CX 943 5924 25211; CX 878 5415 25458; CX 5860 5415 25457;
  CA 25458 25457 25456; CX 25456 5415 5414; CX 877 5859 25455; CX 25455 5414 5923; CX 942 5923 25207; CX 877 5414 25454; CX 5859 5414 25453; CA 25454 25453 25452;
  CX 25452 5414 5413; CX 876 5858 25451; CX 25451 5413 5922; CX 941 5922 25203; CX 876 5413 25450; CX 5858 5413 25449; CA 25450 25449 25448; CX 25448 5413 5412;
  CX 875 5857 25447; CX 25447 5412 5921; CX 940 5921 25199; CX 875 5412 25446; CX 5857 5412 25445; CA 25446 25445 25444; CX 25444 5412 5411; CX 874 5856 25443;
  CX 25443 5411 5920; CX 939 5920 25195; CX 874 5411 25442; CX 5856 5411 25441; CA 25442 25441 25440; CX 25440 5411 5410; CX 873 5855 25439; CX 25439 5410 5919;
  CX 938 5919 25191; CX 873 5410 25438; CX 5855 5410 25437; CA 25438 25437 25436; CX 25436 5410 5409; CX 872 5854 25435; CX 25435 5409 5918; CX 937 5918 25187;
  CX 872 5409 25434; CX 5854 5409 25433; CA 25434 25433 25432; CX 25432 5409 5408; CX 871 5853 25431; CX 25431 5408 5917; CX 936 5917 25183; CX 871 5408 25430;
  CX 5853 5408 25429; CA 25430 25429 25428; CX 25428 5408 5407; CX 870 5852 25427; CX 25427 5407 5916; CX 935 5916 25179; CX 870 5407 25426; CX 5852 5407 25425;
  CA 25426 25425 25424; CX 25424 5407 5406; CX 869 5851 25423; CX 25423 5406 5915; CX 934 5915 25175; CX 869 5406 25422; CX 5851 5406 25421; CA 25422 25421 25420;
  CX 25420 5406 5405; CX 868 5850 25419; CX 25419 5405 5914; CX 933 5914 25171; CX 868 5405 25418; CX 5850 5405 25417; CA 25418 25417 25416; CX 25416 5405 5404;
  CX 867 5849 25415; CX 25415 5404 5913; CX 932 5913 25167; CX 867 5404 25414; CX 5849 5404 25413; CA 25414 25413 25412; CX 25412 5404 5403; CX 866 5848 25411;
  CX 25411 5403 5912; CX 931 5912 25163; CX 866 5403 25410; CX 5848 5403 25409; CA 25410 25409 25408; CX 25408 5403 5402; CX 865 5847 25407; CX 25407 5402 5911;
  CX 930 5911 25159; CX 865 5402 25406; CX 5847 5402 25405; CA 25406 25405 25404; CX 25404 5402 5401; CX 864 5846 25403; CX 25403 5401 5910; CX 929 5910 25155;
  CX 864 5401 25402; CX 5846 5401 25401; CA 25402 25401 25400; CX 25400 5401 5400; CX 863 5845 25399; CX 25399 5400 5909; CX 928 5909 25151; CX 863 5400 25398;
  CX 5845 5400 25397; CA 25398 25397 25396; CX 25396 5400 5399; CX 862 5844 25395; CX 25395 5399 5908; CX 927 5908 25147; CX 862 5399 25394; CX 5844 5399 25393;
  CA 25394 25393 25392; CX 25392 5399 5398; CX 861 5843 25391; CX 25391 5398 5907; CX 926 5907 25143; CX 861 5398 25390; CX 5843 5398 25389; CA 25390 25389 25388;
  CX 25388 5398 5397; CX 860 5842 25387; CX 25387 5397 5906; CX 925 5906 25139; CX 860 5397 25386; CX 5842 5397 25385; CA 25386 25385 25384; CX 25384 5397 5396;
  CX 859 5841 25383; CX 25383 5396 5905; CX 924 5905 25135; CX 859 5396 25382; CX 5841 5396 25381; CA 25382 25381 25380; CX 25380 5396 5395; CX 858 5840 25379;
  CX 25379 5395 5904; CX 923 5904 25131; CX 858 5395 25378; CX 5840 5395 25377; CA 25378 25377 25376; CX 25376 5395 5394; CX 857 5839 25375; CX 25375 5394 5903;
  CX 922 5903 25127; CX 857 5394 25374; CX 5839 5394 25373; CA 25374 25373 25372; CX 25372 5394 5393; CX 856 5838 25371; CX 25371 5393 5902; CX 921 5902 25123;
  CX 856 5393 25370; CX 5838 5393 25369; CA 25370 25369 25368; CX 25368 5393 5392; CX 855 5837 25367; CX 25367 5392 5901; CX 920 5901 25119; CX 855 5392 25366;
  CX 5837 5392 25365; CA 25366 25365 25364; CX 25364 5392 5391; CX 854 5836 25363; CX 25363 5391 5900; CX 919 5900 25115; CX 854 5391 25362; CX 5836 5391 25361;
  CA 25362 25361 25360; CX 25360 5391 5390; CX 853 5835 25359; CX 25359 5390 5899; CX 918 5899 25111; CX 853 5390 25358; CX 5835 5390 25357; CA 25358 25357 25356;
  CX 25356 5390 5389; CX 852 5834 25355; CX 25355 5389 5898; CX 917 5898 25107; CX 852 5389 25354; CX 5834 5389 25353; CA 25354 25353 25352; CX 25352 5389 5388;
  CX 851 5833 25351; CX 25351 5388 5897; CX 916 5897 25103; CX 851 5388 25350; CX 5833 5388 25349; CA 25350 25349 25348; CX 25348 5388 5387; CX 850 5832 25347;
  CX 25347 5387 5896; CX 915 5896 25099; CX 850 5387 25346; CX 5832 5387 25345; CA 25346 25345 25344; CX 25344 5387 5386; CX 5831 5386 25341; CX 25343 5386 5895;
  CX 914 5895 25095; CX 849 5386 25342; CA 25342 25341 25340; CX 25340 5386 5385; CX 5830 5385 25337; CX 25339 5385 5894; CX 913 5894 25091; CX 848 5385 25338;
  CA 25338 25337 25336; CX 25336 5385 5384; CX 5829 5384 25333; CX 25335 5384 5893; CX 912 5893 25087; CX 847 5384 25334; CA 25334 25333 25332; CX 25332 5384 5383;
  CX 5828 5383 25329; CX 25331 5383 5892; CX 911 5892 25083; CX 846 5383 25330; CA 25330 25329 25328; CX 25328 5383 5382; CX 5827 5382 25325; CX 25327 5382 5891;
  CX 910 5891 25079; CX 845 5382 25326; CA 25326 25325 25324; CX 25324 5382 5381; CX 5826 5381 25321; CX 25323 5381 5890; CX 909 5890 25075; CX 844 5381 25322;
  CA 25322 25321 25320; CX 25320 5381 5380; CX 5825 5380 25317; CX 25319 5380 5889; CX 908 5889 25071; CX 843 5380 25318; CA 25318 25317 25316; CX 25316 5380 5379;
  CX 5824 5379 25313; CX 25315 5379 5888; CX 907 5888 25067; CX 842 5379 25314; CA 25314 25313 25312; CX 25312 5379 5378; CX 5823 5378 25309; CX 25311 5378 5887;
  CX 906 5887 25063; CX 841 5378 25310; CA 25310 25309 25308; CX 25308 5378 5377; CX 5822 5377 25305; CX 25307 5377 5886; CX 905 5886 25059; CX 840 5377 25306;
  CA 25306 25305 25304; CX 25304 5377 5376; CX 5821 5376 25301; CX 25303 5376 5885; CX 904 5885 25055; CX 839 5376 25302; CA 25302 25301 25300; CX 25300 5376 5375;
  CX 5820 5375 25297; CX 25299 5375 5884; CX 903 5884 25051; CX 838 5375 25298; CA 25298 25297 25296; CX 25296 5375 5374; CX 5819 5374 25293; CX 25295 5374 5883;
  CX 902 5883 25047; CX 837 5374 25294; CA 25294 25293 25292; CX 25292 5374 5373; CX 5818 5373 25289; CX 25291 5373 5882; CX 901 5882 25043; CX 836 5373 25290;
  CA 25290 25289 25288; CX 25288 5373 5372; CX 5817 5372 25285; CX 25287 5372 5881; CX 900 5881 25039; CX 835 5372 25286; CA 25286 25285 25284; CX 25284 5372 5371;
  CX 5816 5371 25281; CX 25283 5371 5880; CX 899 5880 25035; CX 834 5371 25282; CA 25282 25281 25280; CX 25280 5371 5370; CX 5815 5370 25277; CX 25279 5370 5879;
  CX 898 5879 25031; CX 833 5370 25278; CA 25278 25277 25276; CX 25276 5370 5369; CX 5814 5369 25273; CX 25275 5369 5878; CX 897 5878 25027; CX 832 5369 25274;
  CA 25274 25273 25272; CX 25272 5369 5368; CX 5303 5368 25269; CX 25271 5368 5877; CX 896 5877 25023; CX 831 5368 25270; CA 25270 25269 25268; CX 25268 5368 5367;
  CX 895 5367 25019; CX 25267 5494 6002; CX 1022 6002 28109; CA 1022 6002 5558; CX 1021 5558 25014; CX 957 5494 25266; CA 25266 25265 25264; CX 25264 5494 5493;
  CX 5937 5493 25261; CX 25263 5493 6001; CX 1021 6001 25015; CX 25015 5558 6065; CX 1086 6065 28110; CA 1086 6065 5622; CX 6001 5558 25013; CA 25014 25013 25012;
  CX 25012 5558 5557; CX 1020 5557 25010; CX 1085 5622 24762; CX 956 5493 25262; CA 25262 25261 25260; CX 25260 5493 5492; CX 955 5492 25258; CX 5936 5492 25257;
  CA 25258 25257 25256; CX 25256 5492 5491; CX 25255 5491 5999; CX 25259 5492 6000; CX 5935 5491 25253; CX 954 5491 25254; CA 25254 25253 25252; CX 25252 5491 5490;
  CX 25251 5490 5998; CX 5934 5490 25249; CX 953 5490 25250; CA 25250 25249 25248; CX 25248 5490 5489; CX 25247 5489 5997; CX 952 5489 25246; CX 5933 5489 25245;
  CA 25246 25245 25244; CX 25244 5489 5488; CX 25243 5488 5996; CX 951 5488 25242; CX 5932 5488 25241; CA 25242 25241 25240; CX 25240 5488 5487; CX 25239 5487 5995;
  CX 950 5487 25238; CX 5931 5487 25237; CA 25238 25237 25236; CX 25236 5487 5486; CX 25235 5486 5994; CX 5930 5486 25233; CX 949 5486 25234; CA 25234 25233 25232;
  CX 25232 5486 5485; CX 25231 5485 5993; CX 5929 5485 25229; CX 948 5485 25230; CA 25230 25229 25228; CX 25228 5485 5484; CX 25227 5484 5992; CX 947 5484 25226].
(** Lines 8405-8804 of the file. *)
Definition mult2_64_21 : list cg := [
  CX 5928 5484 25225; CA 25226 25225 25224; CX 25224 5484 5483; CX 25223 5483 5991; CX 946 5483 25222; CX 5927 5483 25221; CA 25222 25221 25220; CX 25220 5483 5482;
  CX 25219 5482 5990; CX 945 5482 25218; CX 5926 5482 25217; CA 25218 25217 25216; CX 25216 5482 5481; CX 25215 5481 5989; CX 5925 5481 25213; CX 944 5481 25214;
  CA 25214 25213 25212; CX 25212 5481 5480; CX 25211 5480 5988; CX 5924 5480 25209; CX 943 5480 25210; CA 25210 25209 25208; CX 25208 5480 5479; CX 25207 5479 5987;
  CX 942 5479 25206; CX 5923 5479 25205; CA 25206 25205 25204; CX 25204 5479 5478; CX 25203 5478 5986; CX 941 5478 25202; CX 5922 5478 25201; CA 25202 25201 25200;
  CX 25200 5478 5477; CX 25199 5477 5985; CX 940 5477 25198; CX 5921 5477 25197; CA 25198 25197 25196; CX 25196 5477 5476; CX 25195 5476 5984; CX 5920 5476 25193;
  CX 939 5476 25194; CA 25194 25193 25192; CX 25192 5476 5475; CX 25191 5475 5983; CX 5919 5475 25189; CX 938 5475 25190; CA 25190 25189 25188; CX 25188 5475 5474;
  CX 25187 5474 5982; CX 937 5474 25186; CX 5918 5474 25185; CA 25186 25185 25184; CX 25184 5474 5473; CX 25183 5473 5981; CX 936 5473 25182; CX 5917 5473 25181;
  CA 25182 25181 25180; CX 25180 5473 5472; CX 25179 5472 5980; CX 935 5472 25178; CX 5916 5472 25177; CA 25178 25177 25176; CX 25176 5472 5471; CX 25175 5471 5979;
  CX 5915 5471 25173; CX 934 5471 25174; CA 25174 25173 25172; CX 25172 5471 5470; CX 25171 5470 5978; CX 5914 5470 25169; CX 933 5470 25170; CA 25170 25169 25168;
  CX 25168 5470 5469; CX 25167 5469 5977; CX 932 5469 25166; CX 5913 5469 25165; CA 25166 25165 25164; CX 25164 5469 5468; CX 25163 5468 5976; CX 931 5468 25162;
  CX 5912 5468 25161; CA 25162 25161 25160; CX 25160 5468 5467; CX 25159 5467 5975; CX 930 5467 25158; CX 5911 5467 25157; CA 25158 25157 25156; CX 25156 5467 5466;
  CX 25155 5466 5974; CX 5910 5466 25153; CX 929 5466 25154; CA 25154 25153 25152; CX 25152 5466 5465; CX 25151 5465 5973; CX 5909 5465 25149; CX 928 5465 25150;
  CA 25150 25149 25148; CX 25148 5465 5464; CX 25147 5464 5972; CX 927 5464 25146; CX 5908 5464 25145; CA 25146 25145 25144; CX 25144 5464 5463; CX 25143 5463 5971;
  CX 926 5463 25142; CX 5907 5463 25141; CA 25142 25141 25140; CX 25140 5463 5462; CX 25139 5462 5970; CX 925 5462 25138; CX 5906 5462 25137; CA 25138 25137 25136;
  CX 25136 5462 5461; CX 25135 5461 5969; CX 5905 5461 25133; CX 924 5461 25134; CA 25134 25133 25132; CX 25132 5461 5460; CX 25131 5460 5968; CX 5904 5460 25129;
  CX 923 5460 25130; CA 25130 25129 25128; CX 25128 5460 5459; CX 25127 5459 5967; CX 922 5459 25126; CX 5903 5459 25125; CA 25126 25125 25124; CX 25124 5459 5458;
  CX 25123 5458 5966; CX 921 5458 25122; CX 5902 5458 25121; CA 25122 25121 25120; CX 25120 5458 5457; CX 25119 5457 5965; CX 920 5457 25118; CX 5901 5457 25117;
  CA 25118 25117 25116; CX 25116 5457 5456; CX 25115 5456 5964; CX 5900 5456 25113; CX 919 5456 25114; CA 25114 25113 25112; CX 25112 5456 5455; CX 25111 5455 5963;
  CX 5899 5455 25109; CX 918 5455 25110; CA 25110 25109 25108; CX 25108 5455 5454; CX 25107 5454 5962; CX 917 5454 25106; CX 5898 5454 25105; CA 25106 25105 25104;
  CX 25104 5454 5453; CX 25103 5453 5961; CX 916 5453 25102; CX 5897 5453 25101; CA 25102 25101 25100; CX 25100 5453 5452; CX 25099 5452 5960; CX 915 5452 25098;
  CX 5896 5452 25097; CA 25098 25097 25096; CX 25096 5452 5451; CX 25095 5451 5959; CX 5895 5451 25093; CX 914 5451 25094; CA 25094 25093 25092; CX 25092 5451 5450;
  CX 25091 5450 5958; CX 5894 5450 25089; CX 913 5450 25090; CA 25090 25089 25088; CX 25088 5450 5449; CX 25087 5449 5957; CX 912 5449 25086; CX 5893 5449 25085;
  CA 25086 25085 25084; CX 25084 5449 5448; CX 25083 5448 5956; CX 911 5448 25082; CX 5892 5448 25081; CA 25082 25081 25080; CX 25080 5448 5447; CX 25079 5447 5955;
  CX 910 5447 25078; CX 5891 5447 25077; CA 25078 25077 25076; CX 25076 5447 5446; CX 25075 5446 5954; CX 5890 5446 25073; CX 909 5446 25074; CA 25074 25073 25072;
  CX 25072 5446 5445; CX 25071 5445 5953; CX 5889 5445 25069; CX 908 5445 25070; CA 25070 25069 25068; CX 25068 5445 5444; CX 25067 5444 5952; CX 907 5444 25066;
  CX 5888 5444 25065; CA 25066 25065 25064; CX 25064 5444 5443; CX 25063 5443 5951; CX 906 5443 25062; CX 5887 5443 25061; CA 25062 25061 25060; CX 25060 5443 5442;
  CX 25059 5442 5950; CX 905 5442 25058; CX 5886 5442 25057; CA 25058 25057 25056; CX 25056 5442 5441; CX 25055 5441 5949; CX 5885 5441 25053; CX 904 5441 25054;
  CA 25054 25053 25052; CX 25052 5441 5440; CX 5884 5440 25049; CX 25051 5440 5948; CX 903 5440 25050; CA 25050 25049 25048; CX 25048 5440 5439; CX 25047 5439 5947;
  CX 902 5439 25046; CX 5883 5439 25045; CA 25046 25045 25044; CX 25044 5439 5438; CX 25043 5438 5946; CX 966 5946 24795; CX 901 5438 25042; CX 5882 5438 25041;
  CA 25042 25041 25040; CX 25040 5438 5437; CX 25039 5437 5945; CX 900 5437 25038; CX 5881 5437 25037; CA 25038 25037 25036; CX 25036 5437 5436; CX 25035 5436 5944;
  CX 899 5436 25034; CX 5880 5436 25033; CA 25034 25033 25032; CX 25032 5436 5435; CX 25031 5435 5943; CX 898 5435 25030; CX 5879 5435 25029; CA 25030 25029 25028;
  CX 25028 5435 5434; CX 25027 5434 5942; CX 897 5434 25026; CX 5878 5434 25025; CA 25026 25025 25024; CX 25024 5434 5433; CX 25023 5433 5941; CX 896 5433 25022;
  CX 5877 5433 25021; CA 25022 25021 25020; CX 25020 5433 5432; CX 25019 5432 5940; CX 895 5432 25018; CX 5367 5432 25017; CA 25018 25017 25016; CX 25016 5432 5431;
  CX 1020 6000 25011; CX 25011 5557 6064; CX 6000 5557 25009; CA 25010 25009 25008; CX 25008 5557 5556; CX 1019 5556 25006; CX 1019 5999 25007; CX 25007 5556 6063;
  CX 5999 5556 25005; CA 25006 25005 25004; CX 25004 5556 5555; CX 1018 5555 25002; CX 1018 5998 25003; CX 25003 5555 6062; CX 5998 5555 25001; CA 25002 25001 25000;
  CX 25000 5555 5554; CX 1017 5554 24998; CX 1017 5997 24999; CX 24999 5554 6061; CX 5997 5554 24997; CA 24998 24997 24996; CX 24996 5554 5553; CX 1016 5553 24994;
  CX 1016 5996 24995; CX 24995 5553 6060; CX 5996 5553 24993; CA 24994 24993 24992; CX 24992 5553 5552; CX 1015 5552 24990; CX 1015 5995 24991; CX 24991 5552 6059;
  CX 5995 5552 24989; CA 24990 24989 24988; CX 24988 5552 5551; CX 1014 5551 24986; CX 1014 5994 24987; CX 24987 5551 6058; CX 5994 5551 24985; CA 24986 24985 24984;
  CX 24984 5551 5550; CX 1013 5550 24982; CX 1013 5993 24983; CX 24983 5550 6057; CX 5993 5550 24981; CA 24982 24981 24980; CX 24980 5550 5549; CX 1012 5549 24978;
  CX 1012 5992 24979; CX 24979 5549 6056; CX 5992 5549 24977; CA 24978 24977 24976; CX 24976 5549 5548; CX 1011 5548 24974; CX 1011 5991 24975; CX 24975 5548 6055;
  CX 5991 5548 24973; CA 24974 24973 24972; CX 24972 5548 5547; CX 1010 5547 24970; CX 1010 5990 24971; CX 24971 5547 6054; CX 5990 5547 24969; CA 24970 24969 24968;
  CX 24968 5547 5546; CX 1009 5546 24966; CX 1009 5989 24967; CX 24967 5546 6053; CX 5989 5546 24965; CA 24966 24965 24964; CX 24964 5546 5545; CX 1008 5545 24962;
  CX 1008 5988 24963; CX 24963 5545 6052; CX 5988 5545 24961; CA 24962 24961 24960; CX 24960 5545 5544; CX 1007 5544 24958; CX 1007 5987 24959; CX 24959 5544 6051;
  CX 5987 5544 24957; CA 24958 24957 24956; CX 24956 5544 5543; CX 1006 5543 24954; CX 1006 5986 24955; CX 24955 5543 6050; CX 5986 5543 24953; CA 24954 24953 24952;
  CX 24952 5543 5542; CX 1005 5542 24950; CX 1005 5985 24951; CX 24951 5542 6049; CX 5985 5542 24949; CA 24950 24949 24948; CX 24948 5542 5541; CX 1004 5541 24946;
  CX 1004 5984 24947; CX 24947 5541 6048; CX 5984 5541 24945; CA 24946 24945 24944; CX 24944 5541 5540; CX 1003 5540 24942; CX 1003 5983 24943; CX 24943 5540 6047;
  CX 5983 5540 24941; CA 24942 24941 24940; CX 24940 5540 5539; CX 1002 5539 24938; CX 1002 5982 24939; CX 24939 5539 6046; CX 5982 5539 24937; CA 24938 24937 24936;
  CX 24936 5539 5538; CX 1001 5538 24934; CX 1001 5981 24935; CX 24935 5538 6045; CX 5981 5538 24933; CA 24934 24933 24932; CX 24932 5538 5537; CX 1000 5537 24930;
  CX 1000 5980 24931; CX 24931 5537 6044; CX 5980 5537 24929; CA 24930 24929 24928; CX 24928 5537 5536; CX 999 5536 24926; CX 999 5979 24927; CX 24927 5536 6043;
  CX 5979 5536 24925; CA 24926 24925 24924; CX 24924 5536 5535; CX 998 5535 24922; CX 998 5978 24923; CX 24923 5535 6042; CX 5978 5535 24921; CA 24922 24921 24920].
(** Lines 8805-9204 of the file. *)
Definition mult2_64_22 : list cg := [
  CX 24920 5535 5534; CX 997 5534 24918; CX 997 5977 24919; CX 24919 5534 6041; CX 5977 5534 24917; CA 24918 24917 24916; CX 24916 5534 5533; CX 996 5533 24914;
  CX 996 5976 24915; CX 24915 5533 6040; CX 5976 5533 24913; CA 24914 24913 24912; CX 24912 5533 5532; CX 995 5532 24910; CX 995 5975 24911; CX 24911 5532 6039;
  CX 5975 5532 24909; CA 24910 24909 24908; CX 24908 5532 5531; CX 994 5531 24906; CX 994 5974 24907; CX 24907 5531 6038; CX 5974 5531 24905; CA 24906 24905 24904;
  CX 24904 5531 5530; CX 993 5530 24902; CX 993 5973 24903; CX 24903 5530 6037; CX 5973 5530 24901; CA 24902 24901 24900; CX 24900 5530 5529; CX 992 5529 24898;
  CX 992 5972 24899; CX 24899 5529 6036; CX 5972 5529 24897; CA 24898 24897 24896; CX 24896 5529 5528; CX 991 5528 24894; CX 991 5971 24895; CX 24895 5528 6035;
  CX 5971 5528 24893; CA 24894 24893 24892; CX 24892 5528 5527; CX 990 5527 24890; CX 990 5970 24891; CX 24891 5527 6034; CX 5970 5527 24889; CA 24890 24889 24888;
  CX 24888 5527 5526; CX 989 5526 24886; CX 989 5969 24887; CX 24887 5526 6033; CX 5969 5526 24885; CA 24886 24885 24884; CX 24884 5526 5525; CX 988 5525 24882;
  CX 988 5968 24883; CX 24883 5525 6032; CX 5968 5525 24881; CA 24882 24881 24880; CX 24880 5525 5524; CX 987 5524 24878; CX 987 5967 24879; CX 24879 5524 6031;
  CX 5967 5524 24877; CA 24878 24877 24876; CX 24876 5524 5523; CX 986 5523 24874; CX 986 5966 24875; CX 24875 5523 6030; CX 5966 5523 24873; CA 24874 24873 24872;
  CX 24872 5523 5522; CX 985 5522 24870; CX 985 5965 24871; CX 24871 5522 6029; CX 5965 5522 24869; CA 24870 24869 24868; CX 24868 5522 5521; CX 984 5521 24866;
  CX 984 5964 24867; CX 24867 5521 6028; CX 5964 5521 24865; CA 24866 24865 24864; CX 24864 5521 5520; CX 983 5520 24862; CX 983 5963 24863; CX 24863 5520 6027;
  CX 5963 5520 24861; CA 24862 24861 24860; CX 24860 5520 5519; CX 982 5519 24858; CX 982 5962 24859; CX 24859 5519 6026; CX 5962 5519 24857; CA 24858 24857 24856;
  CX 24856 5519 5518; CX 981 5518 24854; CX 981 5961 24855; CX 24855 5518 6025; CX 5961 5518 24853; CA 24854 24853 24852; CX 24852 5518 5517; CX 980 5517 24850;
  CX 980 5960 24851; CX 24851 5517 6024; CX 5960 5517 24849; CA 24850 24849 24848; CX 24848 5517 5516; CX 979 5516 24846; CX 979 5959 24847; CX 24847 5516 6023;
  CX 5959 5516 24845; CA 24846 24845 24844; CX 24844 5516 5515; CX 978 5515 24842; CX 978 5958 24843; CX 24843 5515 6022; CX 5958 5515 24841; CA 24842 24841 24840;
  CX 24840 5515 5514; CX 977 5514 24838; CX 977 5957 24839; CX 24839 5514 6021; CX 5957 5514 24837; CA 24838 24837 24836; CX 24836 5514 5513; CX 976 5513 24834;
  CX 976 5956 24835; CX 24835 5513 6020; CX 5956 5513 24833; CA 24834 24833 24832; CX 24832 5513 5512; CX 975 5512 24830; CX 975 5955 24831; CX 24831 5512 6019;
  CX 5955 5512 24829; CA 24830 24829 24828; CX 24828 5512 5511; CX 974 5511 24826; CX 974 5954 24827; CX 24827 5511 6018; CX 5954 5511 24825; CA 24826 24825 24824;
  CX 24824 5511 5510; CX 973 5510 24822; CX 973 5953 24823; CX 24823 5510 6017; CX 5953 5510 24821; CA 24822 24821 24820; CX 24820 5510 5509; CX 972 5509 24818;
  CX 972 5952 24819; CX 24819 5509 6016; CX 5952 5509 24817; CA 24818 24817 24816; CX 24816 5509 5508; CX 971 5508 24814; CX 971 5951 24815; CX 24815 5508 6015;
  CX 5951 5508 24813; CA 24814 24813 24812; CX 24812 5508 5507; CX 970 5507 24810; CX 970 5950 24811; CX 24811 5507 6014; CX 5950 5507 24809; CA 24810 24809 24808;
  CX 24808 5507 5506; CX 969 5506 24806; CX 969 5949 24807; CX 24807 5506 6013; CX 5949 5506 24805; CA 24806 24805 24804; CX 24804 5506 5505; CX 968 5505 24802;
  CX 968 5948 24803; CX 24803 5505 6012; CX 5948 5505 24801; CA 24802 24801 24800; CX 24800 5505 5504; CX 967 5504 24798; CX 967 5947 24799; CX 24799 5504 6011;
  CX 5947 5504 24797; CA 24798 24797 24796; CX 24796 5504 5503; CX 24795 5503 6010; CX 5946 5503 24793; CX 966 5503 24794; CA 24794 24793 24792; CX 24792 5503 5502;
  CX 965 5945 24791; CX 24791 5502 6009; CX 5945 5502 24789; CX 965 5502 24790; CA 24790 24789 24788; CX 24788 5502 5501; CX 964 5944 24787; CX 24787 5501 6008;
  CX 5944 5501 24785; CX 964 5501 24786; CA 24786 24785 24784; CX 24784 5501 5500; CX 963 5943 24783; CX 24783 5500 6007; CX 5943 5500 24781; CX 963 5500 24782;
  CA 24782 24781 24780; CX 24780 5500 5499; CX 962 5942 24779; CX 24779 5499 6006; CX 5942 5499 24777; CX 962 5499 24778; CA 24778 24777 24776; CX 24776 5499 5498;
  CX 961 5941 24775; CX 24775 5498 6005; CX 5941 5498 24773; CX 961 5498 24774; CA 24774 24773 24772; CX 24772 5498 5497; CX 960 5940 24771; CX 24771 5497 6004;
  CX 5940 5497 24769; CX 960 5497 24770; CA 24770 24769 24768; CX 24768 5497 5496; CX 959 5431 24767; CX 24767 5496 6003; CX 5431 5496 24765; CX 959 5496 24766;
  CA 24766 24765 24764; CX 24764 5496 5495; CX 1085 6064 24763; CX 24763 5622 6128; CX 1150 6128 28111; CA 1150 6128 5686; CX 6064 5622 24761; CA 24762 24761 24760;
  CX 24760 5622 5621; CX 1084 6063 24759; CX 24759 5621 6127; CX 6063 5621 24757; CX 1084 5621 24758; CA 24758 24757 24756; CX 24756 5621 5620; CX 1083 6062 24755;
  CX 24755 5620 6126; CX 6062 5620 24753; CX 1083 5620 24754; CA 24754 24753 24752; CX 24752 5620 5619; CX 1082 6061 24751; CX 24751 5619 6125; CX 6061 5619 24749;
  CX 1082 5619 24750; CA 24750 24749 24748; CX 24748 5619 5618; CX 1081 6060 24747; CX 24747 5618 6124; CX 6060 5618 24745; CX 1081 5618 24746; CA 24746 24745 24744;
  CX 24744 5618 5617; CX 1080 6059 24743; CX 24743 5617 6123; CX 6059 5617 24741; CX 1080 5617 24742; CA 24742 24741 24740; CX 24740 5617 5616; CX 1079 6058 24739;
  CX 24739 5616 6122; CX 6058 5616 24737; CX 1079 5616 24738; CA 24738 24737 24736; CX 24736 5616 5615; CX 1078 6057 24735; CX 24735 5615 6121; CX 6057 5615 24733;
  CX 1078 5615 24734; CA 24734 24733 24732; CX 24732 5615 5614; CX 1077 6056 24731; CX 24731 5614 6120; CX 6056 5614 24729; CX 1077 5614 24730; CA 24730 24729 24728;
  CX 24728 5614 5613; CX 1076 6055 24727; CX 24727 5613 6119; CX 6055 5613 24725; CX 1076 5613 24726; CA 24726 24725 24724; CX 24724 5613 5612; CX 1075 6054 24723;
  CX 24723 5612 6118; CX 6054 5612 24721; CX 1075 5612 24722; CA 24722 24721 24720; CX 24720 5612 5611; CX 1074 6053 24719; CX 24719 5611 6117; CX 6053 5611 24717;
  CX 1074 5611 24718; CA 24718 24717 24716; CX 24716 5611 5610; CX 1073 6052 24715; CX 24715 5610 6116; CX 6052 5610 24713; CX 1073 5610 24714; CA 24714 24713 24712;
  CX 24712 5610 5609; CX 1072 6051 24711; CX 24711 5609 6115; CX 6051 5609 24709; CX 1072 5609 24710; CA 24710 24709 24708; CX 24708 5609 5608; CX 1071 6050 24707;
  CX 24707 5608 6114; CX 6050 5608 24705; CX 1071 5608 24706; CA 24706 24705 24704; CX 24704 5608 5607; CX 1070 6049 24703; CX 24703 5607 6113; CX 6049 5607 24701;
  CX 1070 5607 24702; CA 24702 24701 24700; CX 24700 5607 5606; CX 1069 6048 24699; CX 24699 5606 6112; CX 6048 5606 24697; CX 1069 5606 24698; CA 24698 24697 24696;
  CX 24696 5606 5605; CX 1068 6047 24695; CX 24695 5605 6111; CX 6047 5605 24693; CX 1068 5605 24694; CA 24694 24693 24692; CX 24692 5605 5604; CX 1067 6046 24691;
  CX 24691 5604 6110; CX 6046 5604 24689; CX 1067 5604 24690; CA 24690 24689 24688; CX 24688 5604 5603; CX 1066 6045 24687; CX 24687 5603 6109; CX 6045 5603 24685;
  CX 1066 5603 24686; CA 24686 24685 24684; CX 24684 5603 5602; CX 1065 6044 24683; CX 24683 5602 6108; CX 6044 5602 24681; CX 1065 5602 24682; CA 24682 24681 24680;
  CX 24680 5602 5601; CX 1064 6043 24679; CX 24679 5601 6107; CX 6043 5601 24677; CX 1064 5601 24678; CA 24678 24677 24676; CX 24676 5601 5600; CX 1063 6042 24675;
  CX 24675 5600 6106; CX 6042 5600 24673; CX 1063 5600 24674; CA 24674 24673 24672; CX 24672 5600 5599; CX 1062 6041 24671; CX 24671 5599 6105; CX 6041 5599 24669;
  CX 1062 5599 24670; CA 24670 24669 24668; CX 24668 5599 5598; CX 1061 6040 24667; CX 24667 5598 6104; CX 6040 5598 24665; CX 1061 5598 24666; CA 24666 24665 24664;
  CX 24664 5598 5597; CX 1060 6039 24663; CX 24663 5597 6103; CX 6039 5597 24661; CX 1060 5597 24662; CA 24662 24661 24660; CX 24660 5597 5596; CX 1059 6038 24659;
  CX 24659 5596 6102; CX 6038 5596 24657; CX 1059 5596 24658; CA 24658 24657 24656; CX 24656 5596 5595; CX 1058 6037 24655; CX 24655 5595 6101; CX 6037 5595 24653].
(** Lines 9205-9604 of the file. *)
Definition mult2_64_23 : list cg := [
  CX 1058 5595 24654; CA 24654 24653 24652; CX 24652 5595 5594; CX 1057 6036 24651; CX 24651 5594 6100; CX 6036 5594 24649; CX 1057 5594 24650; CA 24650 24649 24648;
  CX 24648 5594 5593; CX 1056 6035 24647; CX 24647 5593 6099; CX 6035 5593 24645; CX 1056 5593 24646; CA 24646 24645 24644; CX 24644 5593 5592; CX 1055 6034 24643;
  CX 24643 5592 6098; CX 6034 5592 24641; CX 1055 5592 24642; CA 24642 24641 24640; CX 24640 5592 5591; CX 1054 6033 24639; CX 24639 5591 6097; CX 6033 5591 24637;
  CX 1054 5591 24638; CA 24638 24637 24636; CX 24636 5591 5590; CX 1053 6032 24635; CX 24635 5590 6096; CX 6032 5590 24633; CX 1053 5590 24634; CA 24634 24633 24632;
  CX 24632 5590 5589; CX 1052 6031 24631; CX 24631 5589 6095; CX 6031 5589 24629; CX 1052 5589 24630; CA 24630 24629 24628; CX 24628 5589 5588; CX 1051 6030 24627;
  CX 24627 5588 6094; CX 6030 5588 24625; CX 1051 5588 24626; CA 24626 24625 24624; CX 24624 5588 5587; CX 1050 6029 24623; CX 24623 5587 6093; CX 6029 5587 24621;
  CX 1050 5587 24622; CA 24622 24621 24620; CX 24620 5587 5586; CX 1049 6028 24619; CX 24619 5586 6092; CX 6028 5586 24617; CX 1049 5586 24618; CA 24618 24617 24616;
  CX 24616 5586 5585; CX 1048 6027 24615; CX 24615 5585 6091; CX 6027 5585 24613; CX 1048 5585 24614; CA 24614 24613 24612; CX 24612 5585 5584; CX 1047 6026 24611;
  CX 24611 5584 6090; CX 6026 5584 24609; CX 1047 5584 24610; CA 24610 24609 24608; CX 24608 5584 5583; CX 1046 6025 24607; CX 24607 5583 6089; CX 6025 5583 24605;
  CX 1046 5583 24606; CA 24606 24605 24604; CX 24604 5583 5582; CX 1045 6024 24603; CX 24603 5582 6088; CX 6024 5582 24601; CX 1045 5582 24602; CA 24602 24601 24600;
  CX 24600 5582 5581; CX 1044 6023 24599; CX 24599 5581 6087; CX 6023 5581 24597; CX 1044 5581 24598; CA 24598 24597 24596; CX 24596 5581 5580; CX 1043 6022 24595;
  CX 24595 5580 6086; CX 6022 5580 24593; CX 1043 5580 24594; CA 24594 24593 24592; CX 24592 5580 5579; CX 1042 6021 24591; CX 24591 5579 6085; CX 6021 5579 24589;
  CX 1042 5579 24590; CA 24590 24589 24588; CX 24588 5579 5578; CX 1041 6020 24587; CX 24587 5578 6084; CX 6020 5578 24585; CX 1041 5578 24586; CA 24586 24585 24584;
  CX 24584 5578 5577; CX 1040 6019 24583; CX 24583 5577 6083; CX 6019 5577 24581; CX 1040 5577 24582; CA 24582 24581 24580; CX 24580 5577 5576; CX 1039 6018 24579;
  CX 24579 5576 6082; CX 6018 5576 24577; CX 1039 5576 24578; CA 24578 24577 24576; CX 24576 5576 5575; CX 1038 6017 24575; CX 24575 5575 6081; CX 6017 5575 24573;
  CX 1038 5575 24574; CA 24574 24573 24572; CX 24572 5575 5574; CX 1037 6016 24571; CX 24571 5574 6080; CX 6016 5574 24569; CX 1037 5574 24570; CA 24570 24569 24568;
  CX 24568 5574 5573; CX 1036 6015 24567; CX 24567 5573 6079; CX 6015 5573 24565; CX 1036 5573 24566; CA 24566 24565 24564; CX 24564 5573 5572; CX 1035 6014 24563;
  CX 24563 5572 6078; CX 6014 5572 24561; CX 1035 5572 24562; CA 24562 24561 24560; CX 24560 5572 5571; CX 1034 6013 24559; CX 24559 5571 6077; CX 6013 5571 24557;
  CX 1034 5571 24558; CA 24558 24557 24556; CX 24556 5571 5570; CX 1033 6012 24555; CX 24555 5570 6076; CX 6012 5570 24553; CX 1033 5570 24554; CA 24554 24553 24552;
  CX 24552 5570 5569; CX 1032 6011 24551; CX 24551 5569 6075; CX 6011 5569 24549; CX 1032 5569 24550; CA 24550 24549 24548; CX 24548 5569 5568; CX 1031 6010 24547;
  CX 24547 5568 6074; CX 6010 5568 24545; CX 1031 5568 24546; CA 24546 24545 24544; CX 24544 5568 5567; CX 1030 5567 24542; CX 1030 6009 24543; CX 24543 5567 6073;
  CX 1029 6008 24539; CX 6009 5567 24541; CA 24542 24541 24540; CX 24540 5567 5566; CX 24539 5566 6072; CX 1029 5566 24538; CX 1028 6007 24535; CX 6008 5566 24537;
  CA 24538 24537 24536; CX 24536 5566 5565; CX 24535 5565 6071; CX 1028 5565 24534; CX 1027 6006 24531; CX 6007 5565 24533; CA 24534 24533 24532; CX 24532 5565 5564;
  CX 24531 5564 6070; CX 1027 5564 24530; CX 1026 6005 24527; CX 6006 5564 24529; CA 24530 24529 24528; CX 24528 5564 5563; CX 24527 5563 6069; CX 1026 5563 24526;
  CX 1025 6004 24523; CX 6005 5563 24525; CA 24526 24525 24524; CX 24524 5563 5562; CX 24523 5562 6068; CX 1025 5562 24522; CX 1024 6003 24519; CX 6004 5562 24521;
  CA 24522 24521 24520; CX 24520 5562 5561; CX 24519 5561 6067; CX 1024 5561 24518; CX 1023 5495 24515; CX 6003 5561 24517; CA 24518 24517 24516; CX 24516 5561 5560;
  CX 24515 5560 6066; CX 1023 5560 24514; CX 1149 6127 24511; CX 5495 5560 24513; CA 24514 24513 24512; CX 24512 5560 5559; CX 24511 5686 6191; CX 1214 6191 28112;
  CA 1214 6191 5750; CX 1149 5686 24510; CX 1148 6126 24507; CX 6127 5686 24509; CA 24510 24509 24508; CX 24508 5686 5685; CX 24507 5685 6190; CX 1148 5685 24506;
  CX 1147 6125 24503; CX 6126 5685 24505; CA 24506 24505 24504; CX 24504 5685 5684; CX 24503 5684 6189; CX 1147 5684 24502; CX 1146 6124 24499; CX 6125 5684 24501;
  CA 24502 24501 24500; CX 24500 5684 5683; CX 24499 5683 6188; CX 1146 5683 24498; CX 1145 6123 24495; CX 6124 5683 24497; CA 24498 24497 24496; CX 24496 5683 5682;
  CX 24495 5682 6187; CX 1145 5682 24494; CX 1144 6122 24491; CX 6123 5682 24493; CA 24494 24493 24492; CX 24492 5682 5681; CX 24491 5681 6186; CX 1144 5681 24490;
  CX 1143 6121 24487; CX 6122 5681 24489; CA 24490 24489 24488; CX 24488 5681 5680; CX 24487 5680 6185; CX 1143 5680 24486; CX 1142 6120 24483; CX 6121 5680 24485;
  CA 24486 24485 24484; CX 24484 5680 5679; CX 24483 5679 6184; CX 1142 5679 24482; CX 1141 6119 24479; CX 6120 5679 24481; CA 24482 24481 24480; CX 24480 5679 5678;
  CX 24479 5678 6183; CX 1141 5678 24478; CX 1140 6118 24475; CX 6119 5678 24477; CA 24478 24477 24476; CX 24476 5678 5677; CX 24475 5677 6182; CX 1140 5677 24474;
  CX 1139 6117 24471; CX 6118 5677 24473; CA 24474 24473 24472; CX 24472 5677 5676; CX 24471 5676 6181; CX 1139 5676 24470; CX 1138 6116 24467; CX 6117 5676 24469;
  CA 24470 24469 24468; CX 24468 5676 5675; CX 24467 5675 6180; CX 1138 5675 24466; CX 1137 6115 24463; CX 6116 5675 24465; CA 24466 24465 24464; CX 24464 5675 5674;
  CX 24463 5674 6179; CX 1137 5674 24462; CX 1136 6114 24459; CX 6115 5674 24461; CA 24462 24461 24460; CX 24460 5674 5673; CX 24459 5673 6178; CX 1136 5673 24458;
  CX 1135 6113 24455; CX 6114 5673 24457; CA 24458 24457 24456; CX 24456 5673 5672; CX 24455 5672 6177; CX 1135 5672 24454; CX 1134 6112 24451; CX 6113 5672 24453;
  CA 24454 24453 24452; CX 24452 5672 5671; CX 24451 5671 6176; CX 1134 5671 24450; CX 1133 6111 24447; CX 6112 5671 24449; CA 24450 24449 24448; CX 24448 5671 5670;
  CX 24447 5670 6175; CX 1133 5670 24446; CX 1132 6110 24443; CX 6111 5670 24445; CA 24446 24445 24444; CX 24444 5670 5669; CX 24443 5669 6174; CX 1132 5669 24442;
  CX 1131 6109 24439; CX 6110 5669 24441; CA 24442 24441 24440; CX 24440 5669 5668; CX 24439 5668 6173; CX 1131 5668 24438; CX 1130 6108 24435; CX 6109 5668 24437;
  CA 24438 24437 24436; CX 24436 5668 5667; CX 24435 5667 6172; CX 1130 5667 24434; CX 1129 6107 24431; CX 6108 5667 24433; CA 24434 24433 24432; CX 24432 5667 5666;
  CX 24431 5666 6171; CX 1129 5666 24430; CX 1128 6106 24427; CX 6107 5666 24429; CA 24430 24429 24428; CX 24428 5666 5665; CX 24427 5665 6170; CX 1128 5665 24426;
  CX 1127 6105 24423; CX 6106 5665 24425; CA 24426 24425 24424; CX 24424 5665 5664; CX 24423 5664 6169; CX 1127 5664 24422; CX 1126 6104 24419; CX 6105 5664 24421;
  CA 24422 24421 24420; CX 24420 5664 5663; CX 24419 5663 6168; CX 1126 5663 24418; CX 1125 6103 24415; CX 6104 5663 24417; CA 24418 24417 24416; CX 24416 5663 5662;
  CX 24415 5662 6167; CX 1125 5662 24414; CX 1124 6102 24411; CX 6103 5662 24413; CA 24414 24413 24412; CX 24412 5662 5661; CX 24411 5661 6166; CX 1124 5661 24410;
  CX 1123 6101 24407; CX 6102 5661 24409; CA 24410 24409 24408; CX 24408 5661 5660; CX 24407 5660 6165; CX 1123 5660 24406; CX 1122 6100 24403; CX 6101 5660 24405;
  CA 24406 24405 24404; CX 24404 5660 5659; CX 24403 5659 6164; CX 1122 5659 24402; CX 1121 6099 24399; CX 6100 5659 24401; CA 24402 24401 24400; CX 24400 5659 5658;
  CX 24399 5658 6163; CX 1121 5658 24398; CX 1120 6098 24395; CX 6099 5658 24397; CA 24398 24397 24396; CX 24396 5658 5657; CX 24395 5657 6162; CX 1120 5657 24394;
  CX 1119 6097 24391; CX 6098 5657 24393; CA 24394 24393 24392; CX 24392 5657 5656; CX 24391 5656 6161; CX 1119 5656 24390; CX 1118 6096 24387; CX 6097 5656 24389].
(** Lines 9605-10004 of the file. *)
Definition mult2_64_24 : list cg := [
  CA 24390 24389 24388; CX 24388 5656 5655; CX 24387 5655 6160; CX 1118 5655 24386; CX 1117 6095 24383; CX 6096 5655 24385; CA 24386 24385 24384; CX 24384 5655 5654;
  CX 24383 5654 6159; CX 1117 5654 24382; CX 1116 6094 24379; CX 6095 5654 24381; CA 24382 24381 24380; CX 24380 5654 5653; CX 24379 5653 6158; CX 1116 5653 24378;
  CX 1115 6093 24375; CX 6094 5653 24377; CA 24378 24377 24376; CX 24376 5653 5652; CX 24375 5652 6157; CX 1115 5652 24374; CX 1114 6092 24371; CX 6093 5652 24373;
  CA 24374 24373 24372; CX 24372 5652 5651; CX 24371 5651 6156; CX 1114 5651 24370; CX 1113 6091 24367; CX 6092 5651 24369; CA 24370 24369 24368; CX 24368 5651 5650;
  CX 24367 5650 6155; CX 1113 5650 24366; CX 1112 6090 24363; CX 6091 5650 24365; CA 24366 24365 24364; CX 24364 5650 5649; CX 24363 5649 6154; CX 1112 5649 24362;
  CX 1111 6089 24359; CX 6090 5649 24361; CA 24362 24361 24360; CX 24360 5649 5648; CX 24359 5648 6153; CX 1111 5648 24358; CX 1110 6088 24355; CX 6089 5648 24357;
  CA 24358 24357 24356; CX 24356 5648 5647; CX 24355 5647 6152; CX 1110 5647 24354; CX 1109 6087 24351; CX 6088 5647 24353; CA 24354 24353 24352; CX 24352 5647 5646;
  CX 24351 5646 6151; CX 1109 5646 24350; CX 1108 6086 24347; CX 6087 5646 24349; CA 24350 24349 24348; CX 24348 5646 5645; CX 24347 5645 6150; CX 1108 5645 24346;
  CX 1107 6085 24343; CX 6086 5645 24345; CA 24346 24345 24344; CX 24344 5645 5644; CX 24343 5644 6149; CX 1107 5644 24342; CX 1106 6084 24339; CX 6085 5644 24341;
  CA 24342 24341 24340; CX 24340 5644 5643; CX 24339 5643 6148; CX 1106 5643 24338; CX 1105 6083 24335; CX 6084 5643 24337; CA 24338 24337 24336; CX 24336 5643 5642;
  CX 24335 5642 6147; CX 1105 5642 24334; CX 1104 6082 24331; CX 6083 5642 24333; CA 24334 24333 24332; CX 24332 5642 5641; CX 24331 5641 6146; CX 1104 5641 24330;
  CX 1103 6081 24327; CX 6082 5641 24329; CA 24330 24329 24328; CX 24328 5641 5640; CX 24327 5640 6145; CX 1103 5640 24326; CX 1102 6080 24323; CX 6081 5640 24325;
  CA 24326 24325 24324; CX 24324 5640 5639; CX 24323 5639 6144; CX 1102 5639 24322; CX 1101 6079 24319; CX 6080 5639 24321; CA 24322 24321 24320; CX 24320 5639 5638;
  CX 24319 5638 6143; CX 1101 5638 24318; CX 1100 6078 24315; CX 6079 5638 24317; CA 24318 24317 24316; CX 24316 5638 5637; CX 24315 5637 6142; CX 1100 5637 24314;
  CX 1099 6077 24311; CX 6078 5637 24313; CA 24314 24313 24312; CX 24312 5637 5636; CX 24311 5636 6141; CX 1099 5636 24310; CX 1098 6076 24307; CX 6077 5636 24309;
  CA 24310 24309 24308; CX 24308 5636 5635; CX 24307 5635 6140; CX 1098 5635 24306; CX 1097 6075 24303; CX 6076 5635 24305; CA 24306 24305 24304; CX 24304 5635 5634;
  CX 24303 5634 6139; CX 1097 5634 24302; CX 1096 6074 24299; CX 6075 5634 24301; CA 24302 24301 24300; CX 24300 5634 5633; CX 24299 5633 6138; CX 1096 5633 24298;
  CX 1095 6073 24295; CX 6074 5633 24297; CA 24298 24297 24296; CX 24296 5633 5632; CX 24295 5632 6137; CX 1095 5632 24294; CX 1094 6072 24291; CX 6073 5632 24293;
  CA 24294 24293 24292; CX 24292 5632 5631; CX 6072 5631 24289; CX 24291 5631 6136; CX 1094 5631 24290; CA 24290 24289 24288; CX 24288 5631 5630; CX 1093 5630 24286;
  CX 1093 6071 24287; CX 24287 5630 6135; CX 6071 5630 24285; CA 24286 24285 24284; CX 24284 5630 5629; CX 1092 5629 24282; CX 1092 6070 24283; CX 24283 5629 6134;
  CX 1157 6134 24035; CX 6070 5629 24281; CA 24282 24281 24280; CX 24280 5629 5628; CX 1091 5628 24278; CX 1091 6069 24279; CX 24279 5628 6133; CX 6069 5628 24277;
  CA 24278 24277 24276; CX 24276 5628 5627; CX 1090 5627 24274; CX 1090 6068 24275; CX 24275 5627 6132; CX 6068 5627 24273; CA 24274 24273 24272; CX 24272 5627 5626;
  CX 1089 5626 24270; CX 1089 6067 24271; CX 24271 5626 6131; CX 6067 5626 24269; CA 24270 24269 24268; CX 24268 5626 5625; CX 1088 5625 24266; CX 1088 6066 24267;
  CX 24267 5625 6130; CX 6066 5625 24265; CA 24266 24265 24264; CX 24264 5625 5624; CX 1087 5624 24262; CX 1087 5559 24263; CX 24263 5624 6129; CX 5559 5624 24261;
  CA 24262 24261 24260; CX 24260 5624 5623; CX 1213 5750 24258; CX 1213 6190 24259; CX 24259 5750 6254; CX 1278 6254 28113; CA 1278 6254 6318; CX 6190 5750 24257;
  CA 24258 24257 24256; CX 24256 5750 5749; CX 1212 5749 24254; CX 1212 6189 24255; CX 24255 5749 6253; CX 6189 5749 24253; CA 24254 24253 24252; CX 24252 5749 5748;
  CX 1211 5748 24250; CX 1211 6188 24251; CX 24251 5748 6252; CX 6188 5748 24249; CA 24250 24249 24248; CX 24248 5748 5747; CX 1210 5747 24246; CX 1210 6187 24247;
  CX 24247 5747 6251; CX 6187 5747 24245; CA 24246 24245 24244; CX 24244 5747 5746; CX 1209 5746 24242; CX 1209 6186 24243; CX 24243 5746 6250; CX 6186 5746 24241;
  CA 24242 24241 24240; CX 24240 5746 5745; CX 1208 5745 24238; CX 1208 6185 24239; CX 24239 5745 6249; CX 6185 5745 24237; CA 24238 24237 24236; CX 24236 5745 5744;
  CX 1207 5744 24234; CX 1207 6184 24235; CX 24235 5744 6248; CX 6184 5744 24233; CA 24234 24233 24232; CX 24232 5744 5743; CX 1206 5743 24230; CX 1206 6183 24231;
  CX 24231 5743 6247; CX 6183 5743 24229; CA 24230 24229 24228; CX 24228 5743 5742; CX 1205 5742 24226; CX 1205 6182 24227; CX 24227 5742 6246; CX 6182 5742 24225;
  CA 24226 24225 24224; CX 24224 5742 5741; CX 1204 5741 24222; CX 1204 6181 24223; CX 24223 5741 6245; CX 6181 5741 24221; CA 24222 24221 24220; CX 24220 5741 5740;
  CX 1203 5740 24218; CX 1203 6180 24219; CX 24219 5740 6244; CX 6180 5740 24217; CA 24218 24217 24216; CX 24216 5740 5739; CX 1202 5739 24214; CX 1202 6179 24215;
  CX 24215 5739 6243; CX 6179 5739 24213; CA 24214 24213 24212; CX 24212 5739 5738; CX 1201 5738 24210; CX 1201 6178 24211; CX 24211 5738 6242; CX 6178 5738 24209;
  CA 24210 24209 24208; CX 24208 5738 5737; CX 1200 5737 24206; CX 1200 6177 24207; CX 24207 5737 6241; CX 6177 5737 24205; CA 24206 24205 24204; CX 24204 5737 5736;
  CX 1199 5736 24202; CX 1199 6176 24203; CX 24203 5736 6240; CX 6176 5736 24201; CA 24202 24201 24200; CX 24200 5736 5735; CX 1198 5735 24198; CX 1198 6175 24199;
  CX 24199 5735 6239; CX 6175 5735 24197; CA 24198 24197 24196; CX 24196 5735 5734; CX 1197 5734 24194; CX 1197 6174 24195; CX 24195 5734 6238; CX 6174 5734 24193;
  CA 24194 24193 24192; CX 24192 5734 5733; CX 1196 5733 24190; CX 1196 6173 24191; CX 24191 5733 6237; CX 6173 5733 24189; CA 24190 24189 24188; CX 24188 5733 5732;
  CX 1195 5732 24186; CX 1195 6172 24187; CX 24187 5732 6236; CX 6172 5732 24185; CA 24186 24185 24184; CX 24184 5732 5731; CX 1194 5731 24182; CX 1194 6171 24183;
  CX 24183 5731 6235; CX 6171 5731 24181; CA 24182 24181 24180; CX 24180 5731 5730; CX 1193 5730 24178; CX 1193 6170 24179; CX 24179 5730 6234; CX 6170 5730 24177;
  CA 24178 24177 24176; CX 24176 5730 5729; CX 1192 5729 24174; CX 1192 6169 24175; CX 24175 5729 6233; CX 6169 5729 24173; CA 24174 24173 24172; CX 24172 5729 5728;
  CX 1191 5728 24170; CX 1191 6168 24171; CX 24171 5728 6232; CX 6168 5728 24169; CA 24170 24169 24168; CX 24168 5728 5727; CX 1190 5727 24166; CX 1190 6167 24167;
  CX 24167 5727 6231; CX 6167 5727 24165; CA 24166 24165 24164; CX 24164 5727 5726; CX 1189 5726 24162; CX 1189 6166 24163; CX 24163 5726 6230; CX 6166 5726 24161;
  CA 24162 24161 24160; CX 24160 5726 5725; CX 1188 5725 24158; CX 1188 6165 24159; CX 24159 5725 6229; CX 6165 5725 24157; CA 24158 24157 24156; CX 24156 5725 5724;
  CX 1187 5724 24154; CX 1187 6164 24155; CX 24155 5724 6228; CX 6164 5724 24153; CA 24154 24153 24152; CX 24152 5724 5723; CX 1186 5723 24150; CX 1186 6163 24151;
  CX 24151 5723 6227; CX 6163 5723 24149; CA 24150 24149 24148; CX 24148 5723 5722; CX 1185 5722 24146; CX 1185 6162 24147; CX 24147 5722 6226; CX 6162 5722 24145;
  CA 24146 24145 24144; CX 24144 5722 5721; CX 1184 5721 24142; CX 1184 6161 24143; CX 24143 5721 6225; CX 6161 5721 24141; CA 24142 24141 24140; CX 24140 5721 5720;
  CX 1183 5720 24138; CX 1183 6160 24139; CX 24139 5720 6224; CX 6160 5720 24137; CA 24138 24137 24136; CX 24136 5720 5719; CX 1182 5719 24134; CX 1182 6159 24135;
  CX 24135 5719 6223; CX 6159 5719 24133; CA 24134 24133 24132; CX 24132 5719 5718; CX 1181 5718 24130; CX 1181 6158 24131; CX 24131 5718 6222; CX 6158 5718 24129;
  CA 24130 24129 24128; CX 24128 5718 5717; CX 1180 5717 24126; CX 1180 6157 24127; CX 24127 5717 6221; CX 6157 5717 24125; CA 24126 24125 24124; CX 24124 5717 5716].
(** Lines 10005-10404 of the file. *)
Definition mult2_64_25 : list cg := [
  CX 1179 5716 24122; CX 1179 6156 24123; CX 24123 5716 6220; CX 6156 5716 24121; CA 24122 24121 24120; CX 24120 5716 5715; CX 1178 5715 24118; CX 1178 6155 24119;
  CX 24119 5715 6219; CX 6155 5715 24117; CA 24118 24117 24116; CX 24116 5715 5714; CX 1177 5714 24114; CX 1177 6154 24115; CX 24115 5714 6218; CX 6154 5714 24113;
  CA 24114 24113 24112; CX 24112 5714 5713; CX 1176 5713 24110; CX 1176 6153 24111; CX 24111 5713 6217; CX 6153 5713 24109; CA 24110 24109 24108; CX 24108 5713 5712;
  CX 1175 5712 24106; CX 1175 6152 24107; CX 24107 5712 6216; CX 6152 5712 24105; CA 24106 24105 24104; CX 24104 5712 5711; CX 1174 5711 24102; CX 1174 6151 24103;
  CX 24103 5711 6215; CX 6151 5711 24101; CA 24102 24101 24100; CX 24100 5711 5710; CX 1173 5710 24098; CX 1173 6150 24099; CX 24099 5710 6214; CX 6150 5710 24097;
  CA 24098 24097 24096; CX 24096 5710 5709; CX 1172 5709 24094; CX 1172 6149 24095; CX 24095 5709 6213; CX 6149 5709 24093; CA 24094 24093 24092; CX 24092 5709 5708;
  CX 1171 5708 24090; CX 1171 6148 24091; CX 24091 5708 6212; CX 6148 5708 24089; CA 24090 24089 24088; CX 24088 5708 5707; CX 1170 5707 24086; CX 1170 6147 24087;
  CX 24087 5707 6211; CX 6147 5707 24085; CA 24086 24085 24084; CX 24084 5707 5706; CX 1169 5706 24082; CX 1169 6146 24083; CX 24083 5706 6210; CX 6146 5706 24081;
  CA 24082 24081 24080; CX 24080 5706 5705; CX 1168 5705 24078; CX 1168 6145 24079; CX 24079 5705 6209; CX 6145 5705 24077; CA 24078 24077 24076; CX 24076 5705 5704;
  CX 1167 5704 24074; CX 1167 6144 24075; CX 24075 5704 6208; CX 6144 5704 24073; CA 24074 24073 24072; CX 24072 5704 5703; CX 1166 5703 24070; CX 1166 6143 24071;
  CX 24071 5703 6207; CX 6143 5703 24069; CA 24070 24069 24068; CX 24068 5703 5702; CX 1165 5702 24066; CX 1165 6142 24067; CX 24067 5702 6206; CX 6142 5702 24065;
  CA 24066 24065 24064; CX 24064 5702 5701; CX 1164 5701 24062; CX 1164 6141 24063; CX 24063 5701 6205; CX 6141 5701 24061; CA 24062 24061 24060; CX 24060 5701 5700;
  CX 1163 5700 24058; CX 1163 6140 24059; CX 24059 5700 6204; CX 6140 5700 24057; CA 24058 24057 24056; CX 24056 5700 5699; CX 1162 5699 24054; CX 1162 6139 24055;
  CX 24055 5699 6203; CX 6139 5699 24053; CA 24054 24053 24052; CX 24052 5699 5698; CX 1161 5698 24050; CX 1161 6138 24051; CX 24051 5698 6202; CX 6138 5698 24049;
  CA 24050 24049 24048; CX 24048 5698 5697; CX 1160 5697 24046; CX 1160 6137 24047; CX 24047 5697 6201; CX 6137 5697 24045; CA 24046 24045 24044; CX 24044 5697 5696;
  CX 1159 5696 24042; CX 1159 6136 24043; CX 24043 5696 6200; CX 6136 5696 24041; CA 24042 24041 24040; CX 24040 5696 5695; CX 1158 5695 24038; CX 1158 6135 24039;
  CX 24039 5695 6199; CX 6135 5695 24037; CA 24038 24037 24036; CX 24036 5695 5694; CX 24035 5694 6198; CX 6134 5694 24033; CX 1157 5694 24034; CA 24034 24033 24032;
  CX 24032 5694 5693; CX 1156 6133 24031; CX 24031 5693 6197; CX 6133 5693 24029; CX 1156 5693 24030; CA 24030 24029 24028; CX 24028 5693 5692; CX 1155 6132 24027;
  CX 24027 5692 6196; CX 6132 5692 24025; CX 1155 5692 24026; CA 24026 24025 24024; CX 24024 5692 5691; CX 1154 6131 24023; CX 24023 5691 6195; CX 6131 5691 24021;
  CX 1154 5691 24022; CA 24022 24021 24020; CX 24020 5691 5690; CX 1153 6130 24019; CX 24019 5690 6194; CX 6130 5690 24017; CX 1153 5690 24018; CA 24018 24017 24016;
  CX 24016 5690 5689; CX 1152 6129 24015; CX 24015 5689 6193; CX 6129 5689 24013; CX 1152 5689 24014; CA 24014 24013 24012; CX 24012 5689 5688; CX 1151 5623 24011;
  CX 24011 5688 6192; CX 5623 5688 24009; CX 1151 5688 24010; CA 24010 24009 24008; CX 24008 5688 5687; CX 1277 6253 24007; CX 24007 6318 6829; CX 1342 6829 28114;
  CA 1342 6829 6382; CX 6253 6318 24005; CX 1277 6318 24006; CA 24006 24005 24004; CX 24004 6318 6317; CX 1276 6252 24003; CX 24003 6317 6828; CX 6252 6317 24001;
  CX 1276 6317 24002; CA 24002 24001 24000; CX 24000 6317 6316; CX 1275 6251 23999; CX 23999 6316 6827; CX 6251 6316 23997; CX 1275 6316 23998; CA 23998 23997 23996;
  CX 23996 6316 6315; CX 1274 6250 23995; CX 23995 6315 6826; CX 6250 6315 23993; CX 1274 6315 23994; CA 23994 23993 23992; CX 23992 6315 6314; CX 1273 6249 23991;
  CX 23991 6314 6825; CX 6249 6314 23989; CX 1273 6314 23990; CA 23990 23989 23988; CX 23988 6314 6313; CX 1272 6248 23987; CX 23987 6313 6824; CX 6248 6313 23985;
  CX 1272 6313 23986; CA 23986 23985 23984; CX 23984 6313 6312; CX 1271 6247 23983; CX 23983 6312 6823; CX 6247 6312 23981; CX 1271 6312 23982; CA 23982 23981 23980;
  CX 23980 6312 6311; CX 1270 6246 23979; CX 23979 6311 6822; CX 6246 6311 23977; CX 1270 6311 23978; CA 23978 23977 23976; CX 23976 6311 6310; CX 1269 6245 23975;
  CX 23975 6310 6821; CX 6245 6310 23973; CX 1269 6310 23974; CA 23974 23973 23972; CX 23972 6310 6309; CX 1268 6244 23971; CX 23971 6309 6820; CX 6244 6309 23969;
  CX 1268 6309 23970; CA 23970 23969 23968; CX 23968 6309 6308; CX 1267 6243 23967; CX 23967 6308 6819; CX 6243 6308 23965; CX 1267 6308 23966; CA 23966 23965 23964;
  CX 23964 6308 6307; CX 1266 6242 23963; CX 23963 6307 6818; CX 6242 6307 23961; CX 1266 6307 23962; CA 23962 23961 23960; CX 23960 6307 6306; CX 1265 6241 23959;
  CX 23959 6306 6817; CX 6241 6306 23957; CX 1265 6306 23958; CA 23958 23957 23956; CX 23956 6306 6305; CX 1264 6240 23955; CX 23955 6305 6816; CX 6240 6305 23953;
  CX 1264 6305 23954; CA 23954 23953 23952; CX 23952 6305 6304; CX 1263 6239 23951; CX 23951 6304 6815; CX 6239 6304 23949; CX 1263 6304 23950; CA 23950 23949 23948;
  CX 23948 6304 6303; CX 1262 6238 23947; CX 23947 6303 6814; CX 6238 6303 23945; CX 1262 6303 23946; CA 23946 23945 23944; CX 23944 6303 6302; CX 1261 6237 23943;
  CX 23943 6302 6813; CX 6237 6302 23941; CX 1261 6302 23942; CA 23942 23941 23940; CX 23940 6302 6301; CX 1260 6236 23939; CX 23939 6301 6812; CX 6236 6301 23937;
  CX 1260 6301 23938; CA 23938 23937 23936; CX 23936 6301 6300; CX 1259 6235 23935; CX 23935 6300 6811; CX 6235 6300 23933; CX 1259 6300 23934; CA 23934 23933 23932;
  CX 23932 6300 6299; CX 1258 6234 23931; CX 23931 6299 6810; CX 6234 6299 23929; CX 1258 6299 23930; CA 23930 23929 23928; CX 23928 6299 6298; CX 1257 6233 23927;
  CX 23927 6298 6809; CX 6233 6298 23925; CX 1257 6298 23926; CA 23926 23925 23924; CX 23924 6298 6297; CX 1256 6232 23923; CX 23923 6297 6808; CX 6232 6297 23921;
  CX 1256 6297 23922; CA 23922 23921 23920; CX 23920 6297 6296; CX 1255 6231 23919; CX 23919 6296 6807; CX 6231 6296 23917; CX 1255 6296 23918; CA 23918 23917 23916;
  CX 23916 6296 6295; CX 1254 6230 23915; CX 23915 6295 6806; CX 6230 6295 23913; CX 1254 6295 23914; CA 23914 23913 23912; CX 23912 6295 6294; CX 1253 6229 23911;
  CX 23911 6294 6805; CX 6229 6294 23909; CX 1253 6294 23910; CA 23910 23909 23908; CX 23908 6294 6293; CX 1252 6228 23907; CX 23907 6293 6804; CX 6228 6293 23905;
  CX 1252 6293 23906; CA 23906 23905 23904; CX 23904 6293 6292; CX 1251 6227 23903; CX 23903 6292 6803; CX 6227 6292 23901; CX 1251 6292 23902; CA 23902 23901 23900;
  CX 23900 6292 6291; CX 1250 6226 23899; CX 23899 6291 6802; CX 6226 6291 23897; CX 1250 6291 23898; CA 23898 23897 23896; CX 23896 6291 6290; CX 1249 6225 23895;
  CX 23895 6290 6801; CX 6225 6290 23893; CX 1249 6290 23894; CA 23894 23893 23892; CX 23892 6290 6289; CX 1248 6224 23891; CX 23891 6289 6800; CX 6224 6289 23889;
  CX 1248 6289 23890; CA 23890 23889 23888; CX 23888 6289 6288; CX 1247 6223 23887; CX 23887 6288 6799; CX 6223 6288 23885; CX 1247 6288 23886; CA 23886 23885 23884;
  CX 23884 6288 6287; CX 1246 6222 23883; CX 23883 6287 6798; CX 6222 6287 23881; CX 1246 6287 23882; CA 23882 23881 23880; CX 23880 6287 6286; CX 1245 6221 23879;
  CX 23879 6286 6797; CX 6221 6286 23877; CX 1245 6286 23878; CA 23878 23877 23876; CX 23876 6286 6285; CX 1244 6220 23875; CX 23875 6285 6796; CX 6220 6285 23873;
  CX 1244 6285 23874; CA 23874 23873 23872; CX 23872 6285 6284; CX 1243 6219 23871; CX 23871 6284 6795; CX 6219 6284 23869; CX 1243 6284 23870; CA 23870 23869 23868;
  CX 23868 6284 6283; CX 1242 6218 23867; CX 23867 6283 6794; CX 6218 6283 23865; CX 1242 6283 23866; CA 23866 23865 23864; CX 23864 6283 6282; CX 1241 6217 23863;
  CX 23863 6282 6793; CX 6217 6282 23861; CX 1241 6282 23862; CA 23862 23861 23860; CX 23860 6282 6281; CX 1240 6216 23859; CX 23859 6281 6792; CX 6216 6281 23857].
(** Lines 10405-10804 of the file. *)
Definition mult2_64_26 : list cg := [
  CX 1240 6281 23858; CA 23858 23857 23856; CX 23856 6281 6280; CX 1239 6215 23855; CX 23855 6280 6791; CX 6215 6280 23853; CX 1239 6280 23854; CA 23854 23853 23852;
  CX 23852 6280 6279; CX 1238 6214 23851; CX 23851 6279 6790; CX 6214 6279 23849; CX 1238 6279 23850; CA 23850 23849 23848; CX 23848 6279 6278; CX 1237 6213 23847;
  CX 23847 6278 6789; CX 6213 6278 23845; CX 1237 6278 23846; CA 23846 23845 23844; CX 23844 6278 6277; CX 1236 6212 23843; CX 23843 6277 6788; CX 6212 6277 23841;
  CX 1236 6277 23842; CA 23842 23841 23840; CX 23840 6277 6276; CX 1235 6211 23839; CX 23839 6276 6787; CX 6211 6276 23837; CX 1235 6276 23838; CA 23838 23837 23836;
  CX 23836 6276 6275; CX 1234 6210 23835; CX 23835 6275 6786; CX 6210 6275 23833; CX 1234 6275 23834; CA 23834 23833 23832; CX 23832 6275 6274; CX 1233 6209 23831;
  CX 23831 6274 6785; CX 6209 6274 23829; CX 1233 6274 23830; CA 23830 23829 23828; CX 23828 6274 6273; CX 1232 6208 23827; CX 23827 6273 6784; CX 6208 6273 23825;
  CX 1232 6273 23826; CA 23826 23825 23824; CX 23824 6273 6272; CX 1231 6207 23823; CX 23823 6272 6783; CX 6207 6272 23821; CX 1231 6272 23822; CA 23822 23821 23820;
  CX 23820 6272 6271; CX 1230 6206 23819; CX 23819 6271 6782; CX 6206 6271 23817; CX 1230 6271 23818; CA 23818 23817 23816; CX 23816 6271 6270; CX 1229 6205 23815;
  CX 23815 6270 6781; CX 6205 6270 23813; CX 1229 6270 23814; CA 23814 23813 23812; CX 23812 6270 6269; CX 1228 6204 23811; CX 23811 6269 6780; CX 6204 6269 23809;
  CX 1228 6269 23810; CA 23810 23809 23808; CX 23808 6269 6268; CX 1227 6203 23807; CX 23807 6268 6779; CX 6203 6268 23805; CX 1227 6268 23806; CA 23806 23805 23804;
  CX 23804 6268 6267; CX 1226 6202 23803; CX 23803 6267 6778; CX 6202 6267 23801; CX 1226 6267 23802; CA 23802 23801 23800; CX 23800 6267 6266; CX 1225 6201 23799;
  CX 23799 6266 6777; CX 6201 6266 23797; CX 1225 6266 23798; CA 23798 23797 23796; CX 23796 6266 6265; CX 1224 6200 23795; CX 23795 6265 6776; CX 6200 6265 23793;
  CX 1224 6265 23794; CA 23794 23793 23792; CX 23792 6265 6264; CX 1223 6199 23791; CX 23791 6264 6775; CX 6199 6264 23789; CX 1223 6264 23790; CA 23790 23789 23788;
  CX 23788 6264 6263; CX 1222 6198 23787; CX 23787 6263 6774; CX 6198 6263 23785; CX 1222 6263 23786; CA 23786 23785 23784; CX 23784 6263 6262; CX 1221 6262 23782;
  CX 1221 6197 23783; CX 23783 6262 6773; CX 1220 6196 23779; CX 6197 6262 23781; CA 23782 23781 23780; CX 23780 6262 6261; CX 23779 6261 6772; CX 1220 6261 23778;
  CX 1219 6195 23775; CX 6196 6261 23777; CA 23778 23777 23776; CX 23776 6261 6260; CX 23775 6260 6771; CX 1219 6260 23774; CX 1218 6194 23771; CX 6195 6260 23773;
  CA 23774 23773 23772; CX 23772 6260 6259; CX 23771 6259 6770; CX 1218 6259 23770; CX 1217 6193 23767; CX 6194 6259 23769; CA 23770 23769 23768; CX 23768 6259 6258;
  CX 23767 6258 6769; CX 1217 6258 23766; CX 1216 6192 23763; CX 6193 6258 23765; CA 23766 23765 23764; CX 23764 6258 6257; CX 23763 6257 6768; CX 1216 6257 23762;
  CX 1215 5687 23759; CX 6192 6257 23761; CA 23762 23761 23760; CX 23760 6257 6256; CX 23759 6256 6767; CX 1215 6256 23758; CX 1341 6828 23755; CX 5687 6256 23757;
  CA 23758 23757 23756; CX 23756 6256 6255; CX 23755 6382 6892; CX 1406 6892 28115; CA 1406 6892 6446; CX 1341 6382 23754; CX 1340 6827 23751; CX 6828 6382 23753;
  CA 23754 23753 23752; CX 23752 6382 6381; CX 23751 6381 6891; CX 1340 6381 23750; CX 1339 6826 23747; CX 6827 6381 23749; CA 23750 23749 23748; CX 23748 6381 6380;
  CX 23747 6380 6890; CX 1339 6380 23746; CX 1338 6825 23743; CX 6826 6380 23745; CA 23746 23745 23744; CX 23744 6380 6379; CX 23743 6379 6889; CX 1338 6379 23742;
  CX 1337 6824 23739; CX 6825 6379 23741; CA 23742 23741 23740; CX 23740 6379 6378; CX 23739 6378 6888; CX 1337 6378 23738; CX 1336 6823 23735; CX 6824 6378 23737;
  CA 23738 23737 23736; CX 23736 6378 6377; CX 23735 6377 6887; CX 1336 6377 23734; CX 1335 6822 23731; CX 6823 6377 23733; CA 23734 23733 23732; CX 23732 6377 6376;
  CX 23731 6376 6886; CX 1335 6376 23730; CX 1334 6821 23727; CX 6822 6376 23729; CA 23730 23729 23728; CX 23728 6376 6375; CX 23727 6375 6885; CX 1334 6375 23726;
  CX 1333 6820 23723; CX 6821 6375 23725; CA 23726 23725 23724; CX 23724 6375 6374; CX 23723 6374 6884; CX 1333 6374 23722; CX 1332 6819 23719; CX 6820 6374 23721;
  CA 23722 23721 23720; CX 23720 6374 6373; CX 23719 6373 6883; CX 1332 6373 23718; CX 1331 6818 23715; CX 6819 6373 23717; CA 23718 23717 23716; CX 23716 6373 6372;
  CX 23715 6372 6882; CX 1331 6372 23714; CX 1330 6817 23711; CX 6818 6372 23713; CA 23714 23713 23712; CX 23712 6372 6371; CX 23711 6371 6881; CX 1330 6371 23710;
  CX 1329 6816 23707; CX 6817 6371 23709; CA 23710 23709 23708; CX 23708 6371 6370; CX 23707 6370 6880; CX 1329 6370 23706; CX 1328 6815 23703; CX 6816 6370 23705;
  CA 23706 23705 23704; CX 23704 6370 6369; CX 23703 6369 6879; CX 1328 6369 23702; CX 1327 6814 23699; CX 6815 6369 23701; CA 23702 23701 23700; CX 23700 6369 6368;
  CX 23699 6368 6878; CX 1327 6368 23698; CX 1326 6813 23695; CX 6814 6368 23697; CA 23698 23697 23696; CX 23696 6368 6367; CX 23695 6367 6877; CX 1326 6367 23694;
  CX 1325 6812 23691; CX 6813 6367 23693; CA 23694 23693 23692; CX 23692 6367 6366; CX 23691 6366 6876; CX 1325 6366 23690; CX 1324 6811 23687; CX 6812 6366 23689;
  CA 23690 23689 23688; CX 23688 6366 6365; CX 23687 6365 6875; CX 1324 6365 23686; CX 1323 6810 23683; CX 6811 6365 23685; CA 23686 23685 23684; CX 23684 6365 6364;
  CX 23683 6364 6874; CX 1323 6364 23682; CX 1322 6809 23679; CX 6810 6364 23681; CA 23682 23681 23680; CX 23680 6364 6363; CX 23679 6363 6873; CX 1322 6363 23678;
  CX 1321 6808 23675; CX 6809 6363 23677; CA 23678 23677 23676; CX 23676 6363 6362; CX 23675 6362 6872; CX 1321 6362 23674; CX 1320 6807 23671; CX 6808 6362 23673;
  CA 23674 23673 23672; CX 23672 6362 6361; CX 23671 6361 6871; CX 1320 6361 23670; CX 1319 6806 23667; CX 6807 6361 23669; CA 23670 23669 23668; CX 23668 6361 6360;
  CX 23667 6360 6870; CX 1319 6360 23666; CX 1318 6805 23663; CX 6806 6360 23665; CA 23666 23665 23664; CX 23664 6360 6359; CX 23663 6359 6869; CX 1318 6359 23662;
  CX 1317 6804 23659; CX 6805 6359 23661; CA 23662 23661 23660; CX 23660 6359 6358; CX 23659 6358 6868; CX 1317 6358 23658; CX 1316 6803 23655; CX 6804 6358 23657;
  CA 23658 23657 23656; CX 23656 6358 6357; CX 23655 6357 6867; CX 1316 6357 23654; CX 1315 6802 23651; CX 6803 6357 23653; CA 23654 23653 23652; CX 23652 6357 6356;
  CX 23651 6356 6866; CX 1315 6356 23650; CX 1314 6801 23647; CX 6802 6356 23649; CA 23650 23649 23648; CX 23648 6356 6355; CX 23647 6355 6865; CX 1314 6355 23646;
  CX 1313 6800 23643; CX 6801 6355 23645; CA 23646 23645 23644; CX 23644 6355 6354; CX 23643 6354 6864; CX 1313 6354 23642; CX 1312 6799 23639; CX 6800 6354 23641;
  CA 23642 23641 23640; CX 23640 6354 6353; CX 23639 6353 6863; CX 1312 6353 23638; CX 1311 6798 23635; CX 6799 6353 23637; CA 23638 23637 23636; CX 23636 6353 6352;
  CX 23635 6352 6862; CX 1311 6352 23634; CX 1310 6797 23631; CX 6798 6352 23633; CA 23634 23633 23632; CX 23632 6352 6351; CX 23631 6351 6861; CX 1310 6351 23630;
  CX 1309 6796 23627; CX 6797 6351 23629; CA 23630 23629 23628; CX 23628 6351 6350; CX 23627 6350 6860; CX 1309 6350 23626; CX 1308 6795 23623; CX 6796 6350 23625;
  CA 23626 23625 23624; CX 23624 6350 6349; CX 23623 6349 6859; CX 1308 6349 23622; CX 1307 6794 23619; CX 6795 6349 23621; CA 23622 23621 23620; CX 23620 6349 6348;
  CX 23619 6348 6858; CX 1307 6348 23618; CX 1306 6793 23615; CX 6794 6348 23617; CA 23618 23617 23616; CX 23616 6348 6347; CX 23615 6347 6857; CX 1306 6347 23614;
  CX 1305 6792 23611; CX 6793 6347 23613; CA 23614 23613 23612; CX 23612 6347 6346; CX 23611 6346 6856; CX 1305 6346 23610; CX 1304 6791 23607; CX 6792 6346 23609;
  CA 23610 23609 23608; CX 23608 6346 6345; CX 23607 6345 6855; CX 1304 6345 23606; CX 1303 6790 23603; CX 6791 6345 23605; CA 23606 23605 23604; CX 23604 6345 6344;
  CX 23603 6344 6854; CX 1303 6344 23602; CX 1302 6789 23599; CX 6790 6344 23601; CA 23602 23601 23600; CX 23600 6344 6343; CX 23599 6343 6853; CX 1302 6343 23598;
  CX 1301 6788 23595; CX 6789 6343 23597; CA 23598 23597 23596; CX 23596 6343 6342; CX 23595 6342 6852; CX 1301 6342 23594; CX 1300 6787 23591; CX 6788 6342 23593].
(** Lines 10805-11204 of the file. *)
Definition mult2_64_27 : list cg := [
  CA 23594 23593 23592; CX 23592 6342 6341; CX 23591 6341 6851; CX 1300 6341 23590; CX 1299 6786 23587; CX 6787 6341 23589; CA 23590 23589 23588; CX 23588 6341 6340;
  CX 23587 6340 6850; CX 1299 6340 23586; CX 1298 6785 23583; CX 6786 6340 23585; CA 23586 23585 23584; CX 23584 6340 6339; CX 23583 6339 6849; CX 1298 6339 23582;
  CX 1297 6784 23579; CX 6785 6339 23581; CA 23582 23581 23580; CX 23580 6339 6338; CX 23579 6338 6848; CX 1297 6338 23578; CX 1296 6783 23575; CX 6784 6338 23577;
  CA 23578 23577 23576; CX 23576 6338 6337; CX 23575 6337 6847; CX 1296 6337 23574; CX 1295 6782 23571; CX 6783 6337 23573; CA 23574 23573 23572; CX 23572 6337 6336;
  CX 23571 6336 6846; CX 1295 6336 23570; CX 1294 6781 23567; CX 6782 6336 23569; CA 23570 23569 23568; CX 23568 6336 6335; CX 23567 6335 6845; CX 1294 6335 23566;
  CX 1293 6780 23563; CX 6781 6335 23565; CA 23566 23565 23564; CX 23564 6335 6334; CX 23563 6334 6844; CX 1293 6334 23562; CX 1292 6779 23559; CX 6780 6334 23561;
  CA 23562 23561 23560; CX 23560 6334 6333; CX 23559 6333 6843; CX 1292 6333 23558; CX 1291 6778 23555; CX 6779 6333 23557; CA 23558 23557 23556; CX 23556 6333 6332;
  CX 23555 6332 6842; CX 1291 6332 23554; CX 1290 6777 23551; CX 6778 6332 23553; CA 23554 23553 23552; CX 23552 6332 6331; CX 23551 6331 6841; CX 1290 6331 23550;
  CX 1289 6776 23547; CX 6777 6331 23549; CA 23550 23549 23548; CX 23548 6331 6330; CX 23547 6330 6840; CX 1289 6330 23546; CX 1288 6775 23543; CX 6776 6330 23545;
  CA 23546 23545 23544; CX 23544 6330 6329; CX 23543 6329 6839; CX 1288 6329 23542; CX 1287 6774 23539; CX 6775 6329 23541; CA 23542 23541 23540; CX 23540 6329 6328;
  CX 23539 6328 6838; CX 1287 6328 23538; CX 1286 6773 23535; CX 6774 6328 23537; CA 23538 23537 23536; CX 23536 6328 6327; CX 23535 6327 6837; CX 1286 6327 23534;
  CX 1285 6772 23531; CX 6773 6327 23533; CA 23534 23533 23532; CX 23532 6327 6326; CX 6772 6326 23529; CX 23531 6326 6836; CX 1285 6326 23530; CA 23530 23529 23528;
  CX 23528 6326 6325; CX 1284 6325 23526; CX 1284 6771 23527; CX 23527 6325 6835; CX 6771 6325 23525; CA 23526 23525 23524; CX 23524 6325 6324; CX 1283 6324 23522;
  CX 1283 6770 23523; CX 23523 6324 6834; CX 1348 6834 23275; CX 6770 6324 23521; CA 23522 23521 23520; CX 23520 6324 6323; CX 1282 6323 23518; CX 1282 6769 23519;
  CX 23519 6323 6833; CX 6769 6323 23517; CA 23518 23517 23516; CX 23516 6323 6322; CX 1281 6322 23514; CX 1281 6768 23515; CX 23515 6322 6832; CX 6768 6322 23513;
  CA 23514 23513 23512; CX 23512 6322 6321; CX 1280 6321 23510; CX 1280 6767 23511; CX 23511 6321 6831; CX 6767 6321 23509; CA 23510 23509 23508; CX 23508 6321 6320;
  CX 1279 6320 23506; CX 1279 6255 23507; CX 23507 6320 6830; CX 6255 6320 23505; CA 23506 23505 23504; CX 23504 6320 6319; CX 1405 6446 23502; CX 1405 6891 23503;
  CX 23503 6446 6955; CX 1470 6955 28116; CA 1470 6955 6510; CX 6891 6446 23501; CA 23502 23501 23500; CX 23500 6446 6445; CX 1404 6445 23498; CX 1404 6890 23499;
  CX 23499 6445 6954; CX 6890 6445 23497; CA 23498 23497 23496; CX 23496 6445 6444; CX 1403 6444 23494; CX 1403 6889 23495; CX 23495 6444 6953; CX 6889 6444 23493;
  CA 23494 23493 23492; CX 23492 6444 6443; CX 1402 6443 23490; CX 1402 6888 23491; CX 23491 6443 6952; CX 6888 6443 23489; CA 23490 23489 23488; CX 23488 6443 6442;
  CX 1401 6442 23486; CX 1401 6887 23487; CX 23487 6442 6951; CX 6887 6442 23485; CA 23486 23485 23484; CX 23484 6442 6441; CX 1400 6441 23482; CX 1400 6886 23483;
  CX 23483 6441 6950; CX 6886 6441 23481; CA 23482 23481 23480; CX 23480 6441 6440; CX 1399 6440 23478; CX 1399 6885 23479; CX 23479 6440 6949; CX 6885 6440 23477;
  CA 23478 23477 23476; CX 23476 6440 6439; CX 1398 6439 23474; CX 1398 6884 23475; CX 23475 6439 6948; CX 6884 6439 23473; CA 23474 23473 23472; CX 23472 6439 6438;
  CX 1397 6438 23470; CX 1397 6883 23471; CX 23471 6438 6947; CX 6883 6438 23469; CA 23470 23469 23468; CX 23468 6438 6437; CX 1396 6437 23466; CX 1396 6882 23467;
  CX 23467 6437 6946; CX 6882 6437 23465; CA 23466 23465 23464; CX 23464 6437 6436; CX 1395 6436 23462; CX 1395 6881 23463; CX 23463 6436 6945; CX 6881 6436 23461;
  CA 23462 23461 23460; CX 23460 6436 6435; CX 1394 6435 23458; CX 1394 6880 23459; CX 23459 6435 6944; CX 6880 6435 23457; CA 23458 23457 23456; CX 23456 6435 6434;
  CX 1393 6434 23454; CX 1393 6879 23455; CX 23455 6434 6943; CX 6879 6434 23453; CA 23454 23453 23452; CX 23452 6434 6433; CX 1392 6433 23450; CX 1392 6878 23451;
  CX 23451 6433 6942; CX 6878 6433 23449; CA 23450 23449 23448; CX 23448 6433 6432; CX 1391 6432 23446; CX 1391 6877 23447; CX 23447 6432 6941; CX 6877 6432 23445;
  CA 23446 23445 23444; CX 23444 6432 6431; CX 1390 6431 23442; CX 1390 6876 23443; CX 23443 6431 6940; CX 6876 6431 23441; CA 23442 23441 23440; CX 23440 6431 6430;
  CX 1389 6430 23438; CX 1389 6875 23439; CX 23439 6430 6939; CX 6875 6430 23437; CA 23438 23437 23436; CX 23436 6430 6429; CX 1388 6429 23434; CX 1388 6874 23435;
  CX 23435 6429 6938; CX 6874 6429 23433; CA 23434 23433 23432; CX 23432 6429 6428; CX 1387 6428 23430; CX 1387 6873 23431; CX 23431 6428 6937; CX 6873 6428 23429;
  CA 23430 23429 23428; CX 23428 6428 6427; CX 1386 6427 23426; CX 1386 6872 23427; CX 23427 6427 6936; CX 6872 6427 23425; CA 23426 23425 23424; CX 23424 6427 6426;
  CX 1385 6426 23422; CX 1385 6871 23423; CX 23423 6426 6935; CX 6871 6426 23421; CA 23422 23421 23420; CX 23420 6426 6425; CX 1384 6425 23418; CX 1384 6870 23419;
  CX 23419 6425 6934; CX 6870 6425 23417; CA 23418 23417 23416; CX 23416 6425 6424; CX 1383 6424 23414; CX 1383 6869 23415; CX 23415 6424 6933; CX 6869 6424 23413;
  CA 23414 23413 23412; CX 23412 6424 6423; CX 1382 6423 23410; CX 1382 6868 23411; CX 23411 6423 6932; CX 6868 6423 23409; CA 23410 23409 23408; CX 23408 6423 6422;
  CX 1381 6422 23406; CX 1381 6867 23407; CX 23407 6422 6931; CX 6867 6422 23405; CA 23406 23405 23404; CX 23404 6422 6421; CX 1380 6421 23402; CX 1380 6866 23403;
  CX 23403 6421 6930; CX 6866 6421 23401; CA 23402 23401 23400; CX 23400 6421 6420; CX 1379 6420 23398; CX 1379 6865 23399; CX 23399 6420 6929; CX 6865 6420 23397;
  CA 23398 23397 23396; CX 23396 6420 6419; CX 1378 6419 23394; CX 1378 6864 23395; CX 23395 6419 6928; CX 6864 6419 23393; CA 23394 23393 23392; CX 23392 6419 6418;
  CX 1377 6418 23390; CX 1377 6863 23391; CX 23391 6418 6927; CX 6863 6418 23389; CA 23390 23389 23388; CX 23388 6418 6417; CX 1376 6417 23386; CX 1376 6862 23387;
  CX 23387 6417 6926; CX 6862 6417 23385; CA 23386 23385 23384; CX 23384 6417 6416; CX 1375 6416 23382; CX 1375 6861 23383; CX 23383 6416 6925; CX 6861 6416 23381;
  CA 23382 23381 23380; CX 23380 6416 6415; CX 1374 6415 23378; CX 1374 6860 23379; CX 23379 6415 6924; CX 6860 6415 23377; CA 23378 23377 23376; CX 23376 6415 6414;
  CX 1373 6414 23374; CX 1373 6859 23375; CX 23375 6414 6923; CX 6859 6414 23373; CA 23374 23373 23372; CX 23372 6414 6413; CX 1372 6413 23370; CX 1372 6858 23371;
  CX 23371 6413 6922; CX 6858 6413 23369; CA 23370 23369 23368; CX 23368 6413 6412; CX 1371 6412 23366; CX 1371 6857 23367; CX 23367 6412 6921; CX 6857 6412 23365;
  CA 23366 23365 23364; CX 23364 6412 6411; CX 1370 6411 23362; CX 1370 6856 23363; CX 23363 6411 6920; CX 6856 6411 23361; CA 23362 23361 23360; CX 23360 6411 6410;
  CX 1369 6410 23358; CX 1369 6855 23359; CX 23359 6410 6919; CX 6855 6410 23357; CA 23358 23357 23356; CX 23356 6410 6409; CX 1368 6409 23354; CX 1368 6854 23355;
  CX 23355 6409 6918; CX 6854 6409 23353; CA 23354 23353 23352; CX 23352 6409 6408; CX 1367 6408 23350; CX 1367 6853 23351; CX 23351 6408 6917; CX 6853 6408 23349;
  CA 23350 23349 23348; CX 23348 6408 6407; CX 1366 6407 23346; CX 1366 6852 23347; CX 23347 6407 6916; CX 6852 6407 23345; CA 23346 23345 23344; CX 23344 6407 6406;
  CX 1365 6406 23342; CX 1365 6851 23343; CX 23343 6406 6915; CX 6851 6406 23341; CA 23342 23341 23340; CX 23340 6406 6405; CX 1364 6405 23338; CX 1364 6850 23339;
  CX 23339 6405 6914; CX 6850 6405 23337; CA 23338 23337 23336; CX 23336 6405 6404; CX 1363 6404 23334; CX 1363 6849 23335; CX 23335 6404 6913; CX 6849 6404 23333;
  CA 23334 23333 23332; CX 23332 6404 6403; CX 1362 6403 23330; CX 1362 6848 23331; CX 23331 6403 6912; CX 6848 6403 23329; CA 23330 23329 23328; CX 23328 6403 6402].
(** Lines 11205-11604 of the file. *)
Definition mult2_64_28 : list cg := [
  CX 1361 6402 23326; CX 1361 6847 23327; CX 23327 6402 6911; CX 6847 6402 23325; CA 23326 23325 23324; CX 23324 6402 6401; CX 1360 6401 23322; CX 1360 6846 23323;
  CX 23323 6401 6910; CX 6846 6401 23321; CA 23322 23321 23320; CX 23320 6401 6400; CX 1359 6400 23318; CX 1359 6845 23319; CX 23319 6400 6909; CX 6845 6400 23317;
  CA 23318 23317 23316; CX 23316 6400 6399; CX 1358 6399 23314; CX 1358 6844 23315; CX 23315 6399 6908; CX 6844 6399 23313; CA 23314 23313 23312; CX 23312 6399 6398;
  CX 1357 6398 23310; CX 1357 6843 23311; CX 23311 6398 6907; CX 6843 6398 23309; CA 23310 23309 23308; CX 23308 6398 6397; CX 1356 6397 23306; CX 1356 6842 23307;
  CX 23307 6397 6906; CX 6842 6397 23305; CA 23306 23305 23304; CX 23304 6397 6396; CX 1355 6396 23302; CX 1355 6841 23303; CX 23303 6396 6905; CX 6841 6396 23301;
  CA 23302 23301 23300; CX 23300 6396 6395; CX 1354 6395 23298; CX 1354 6840 23299; CX 23299 6395 6904; CX 6840 6395 23297; CA 23298 23297 23296; CX 23296 6395 6394;
  CX 1353 6394 23294; CX 1353 6839 23295; CX 23295 6394 6903; CX 6839 6394 23293; CA 23294 23293 23292; CX 23292 6394 6393; CX 1352 6393 23290; CX 1352 6838 23291;
  CX 23291 6393 6902; CX 6838 6393 23289; CA 23290 23289 23288; CX 23288 6393 6392; CX 1351 6392 23286; CX 1351 6837 23287; CX 23287 6392 6901; CX 6837 6392 23285;
  CA 23286 23285 23284; CX 23284 6392 6391; CX 1350 6391 23282; CX 1350 6836 23283; CX 23283 6391 6900; CX 6836 6391 23281; CA 23282 23281 23280; CX 23280 6391 6390;
  CX 1349 6390 23278; CX 1349 6835 23279; CX 23279 6390 6899; CX 6835 6390 23277; CA 23278 23277 23276; CX 23276 6390 6389; CX 23275 6389 6898; CX 6834 6389 23273;
  CX 1348 6389 23274; CA 23274 23273 23272; CX 23272 6389 6388; CX 1347 6833 23271; CX 23271 6388 6897; CX 6833 6388 23269; CX 1347 6388 23270; CA 23270 23269 23268;
  CX 23268 6388 6387; CX 1346 6832 23267; CX 23267 6387 6896; CX 6832 6387 23265; CX 1346 6387 23266; CA 23266 23265 23264; CX 23264 6387 6386; CX 1345 6831 23263;
  CX 23263 6386 6895; CX 6831 6386 23261; CX 1345 6386 23262; CA 23262 23261 23260; CX 23260 6386 6385; CX 1344 6830 23259; CX 23259 6385 6894; CX 6830 6385 23257;
  CX 1344 6385 23258; CA 23258 23257 23256; CX 23256 6385 6384; CX 1343 6319 23255; CX 23255 6384 6893; CX 6319 6384 23253; CX 1343 6384 23254; CA 23254 23253 23252;
  CX 23252 6384 6383; CX 1469 6954 23251; CX 23251 6510 7018; CX 1534 7018 28117; CA 1534 7018 6574; CX 6954 6510 23249; CX 1469 6510 23250; CA 23250 23249 23248;
  CX 23248 6510 6509; CX 1468 6953 23247; CX 23247 6509 7017; CX 6953 6509 23245; CX 1468 6509 23246; CA 23246 23245 23244; CX 23244 6509 6508; CX 1467 6952 23243;
  CX 23243 6508 7016; CX 6952 6508 23241; CX 1467 6508 23242; CA 23242 23241 23240; CX 23240 6508 6507; CX 1466 6951 23239; CX 23239 6507 7015; CX 6951 6507 23237;
  CX 1466 6507 23238; CA 23238 23237 23236; CX 23236 6507 6506; CX 1465 6950 23235; CX 23235 6506 7014; CX 6950 6506 23233; CX 1465 6506 23234; CA 23234 23233 23232;
  CX 23232 6506 6505; CX 1464 6949 23231; CX 23231 6505 7013; CX 6949 6505 23229; CX 1464 6505 23230; CA 23230 23229 23228; CX 23228 6505 6504; CX 1463 6948 23227;
  CX 23227 6504 7012; CX 6948 6504 23225; CX 1463 6504 23226; CA 23226 23225 23224; CX 23224 6504 6503; CX 1462 6947 23223; CX 23223 6503 7011; CX 6947 6503 23221;
  CX 1462 6503 23222; CA 23222 23221 23220; CX 23220 6503 6502; CX 1461 6946 23219; CX 23219 6502 7010; CX 6946 6502 23217; CX 1461 6502 23218; CA 23218 23217 23216;
  CX 23216 6502 6501; CX 1460 6945 23215; CX 23215 6501 7009; CX 6945 6501 23213; CX 1460 6501 23214; CA 23214 23213 23212; CX 23212 6501 6500; CX 1459 6944 23211;
  CX 23211 6500 7008; CX 6944 6500 23209; CX 1459 6500 23210; CA 23210 23209 23208; CX 23208 6500 6499; CX 1458 6943 23207; CX 23207 6499 7007; CX 6943 6499 23205;
  CX 1458 6499 23206; CA 23206 23205 23204; CX 23204 6499 6498; CX 1457 6942 23203; CX 23203 6498 7006; CX 6942 6498 23201; CX 1457 6498 23202; CA 23202 23201 23200;
  CX 23200 6498 6497; CX 1456 6941 23199; CX 23199 6497 7005; CX 6941 6497 23197; CX 1456 6497 23198; CA 23198 23197 23196; CX 23196 6497 6496; CX 1455 6940 23195;
  CX 23195 6496 7004; CX 6940 6496 23193; CX 1455 6496 23194; CA 23194 23193 23192; CX 23192 6496 6495; CX 1454 6939 23191; CX 23191 6495 7003; CX 6939 6495 23189;
  CX 1454 6495 23190; CA 23190 23189 23188; CX 23188 6495 6494; CX 1453 6938 23187; CX 23187 6494 7002; CX 6938 6494 23185; CX 1453 6494 23186; CA 23186 23185 23184;
  CX 23184 6494 6493; CX 1452 6937 23183; CX 23183 6493 7001; CX 6937 6493 23181; CX 1452 6493 23182; CA 23182 23181 23180; CX 23180 6493 6492; CX 1451 6936 23179;
  CX 23179 6492 7000; CX 6936 6492 23177; CX 1451 6492 23178; CA 23178 23177 23176; CX 23176 6492 6491; CX 1450 6935 23175; CX 23175 6491 6999; CX 6935 6491 23173;
  CX 1450 6491 23174; CA 23174 23173 23172; CX 23172 6491 6490; CX 1449 6934 23171; CX 23171 6490 6998; CX 6934 6490 23169; CX 1449 6490 23170; CA 23170 23169 23168;
  CX 23168 6490 6489; CX 1448 6933 23167; CX 23167 6489 6997; CX 6933 6489 23165; CX 1448 6489 23166; CA 23166 23165 23164; CX 23164 6489 6488; CX 1447 6932 23163;
  CX 23163 6488 6996; CX 6932 6488 23161; CX 1447 6488 23162; CA 23162 23161 23160; CX 23160 6488 6487; CX 1446 6931 23159; CX 23159 6487 6995; CX 6931 6487 23157;
  CX 1446 6487 23158; CA 23158 23157 23156; CX 23156 6487 6486; CX 1445 6930 23155; CX 23155 6486 6994; CX 6930 6486 23153; CX 1445 6486 23154; CA 23154 23153 23152;
  CX 23152 6486 6485; CX 1444 6929 23151; CX 23151 6485 6993; CX 6929 6485 23149; CX 1444 6485 23150; CA 23150 23149 23148; CX 23148 6485 6484; CX 1443 6928 23147;
  CX 23147 6484 6992; CX 6928 6484 23145; CX 1443 6484 23146; CA 23146 23145 23144; CX 23144 6484 6483; CX 1442 6927 23143; CX 23143 6483 6991; CX 6927 6483 23141;
  CX 1442 6483 23142; CA 23142 23141 23140; CX 23140 6483 6482; CX 1441 6926 23139; CX 23139 6482 6990; CX 6926 6482 23137; CX 1441 6482 23138; CA 23138 23137 23136;
  CX 23136 6482 6481; CX 1440 6925 23135; CX 23135 6481 6989; CX 6925 6481 23133; CX 1440 6481 23134; CA 23134 23133 23132; CX 23132 6481 6480; CX 1439 6924 23131;
  CX 23131 6480 6988; CX 6924 6480 23129; CX 1439 6480 23130; CA 23130 23129 23128; CX 23128 6480 6479; CX 1438 6923 23127; CX 23127 6479 6987; CX 6923 6479 23125;
  CX 1438 6479 23126; CA 23126 23125 23124; CX 23124 6479 6478; CX 1437 6922 23123; CX 23123 6478 6986; CX 6922 6478 23121; CX 1437 6478 23122; CA 23122 23121 23120;
  CX 23120 6478 6477; CX 1436 6921 23119; CX 23119 6477 6985; CX 6921 6477 23117; CX 1436 6477 23118; CA 23118 23117 23116; CX 23116 6477 6476; CX 1435 6920 23115;
  CX 23115 6476 6984; CX 6920 6476 23113; CX 1435 6476 23114; CA 23114 23113 23112; CX 23112 6476 6475; CX 1434 6919 23111; CX 23111 6475 6983; CX 6919 6475 23109;
  CX 1434 6475 23110; CA 23110 23109 23108; CX 23108 6475 6474; CX 1433 6918 23107; CX 23107 6474 6982; CX 6918 6474 23105; CX 1433 6474 23106; CA 23106 23105 23104;
  CX 23104 6474 6473; CX 1432 6917 23103; CX 23103 6473 6981; CX 6917 6473 23101; CX 1432 6473 23102; CA 23102 23101 23100; CX 23100 6473 6472; CX 1431 6916 23099;
  CX 23099 6472 6980; CX 6916 6472 23097; CX 1431 6472 23098; CA 23098 23097 23096; CX 23096 6472 6471; CX 1430 6915 23095; CX 23095 6471 6979; CX 6915 6471 23093;
  CX 1430 6471 23094; CA 23094 23093 23092; CX 23092 6471 6470; CX 1429 6914 23091; CX 23091 6470 6978; CX 6914 6470 23089; CX 1429 6470 23090; CA 23090 23089 23088;
  CX 23088 6470 6469; CX 1428 6913 23087; CX 23087 6469 6977; CX 6913 6469 23085; CX 1428 6469 23086; CA 23086 23085 23084; CX 23084 6469 6468; CX 1427 6912 23083;
  CX 23083 6468 6976; CX 6912 6468 23081; CX 1427 6468 23082; CA 23082 23081 23080; CX 23080 6468 6467; CX 1426 6911 23079; CX 23079 6467 6975; CX 1491 6975 22831;
  CX 6911 6467 23077; CX 1426 6467 23078; CA 23078 23077 23076; CX 23076 6467 6466; CX 1425 6910 23075; CX 23075 6466 6974; CX 6910 6466 23073; CX 1425 6466 23074;
  CA 23074 23073 23072; CX 23072 6466 6465; CX 1424 6909 23071; CX 23071 6465 6973; CX 6909 6465 23069; CX 1424 6465 23070; CA 23070 23069 23068; CX 23068 6465 6464;
  CX 1423 6908 23067; CX 23067 6464 6972; CX 6908 6464 23065; CX 1423 6464 23066; CA 23066 23065 23064; CX 23064 6464 6463; CX 1422 6907 23063; CX 23063 6463 6971].
(** Lines 11605-12004 of the file. *)
Definition mult2_64_29 : list cg := [
  CX 6907 6463 23061; CX 1422 6463 23062; CA 23062 23061 23060; CX 23060 6463 6462; CX 1421 6906 23059; CX 23059 6462 6970; CX 6906 6462 23057; CX 1421 6462 23058;
  CA 23058 23057 23056; CX 23056 6462 6461; CX 1420 6905 23055; CX 23055 6461 6969; CX 6905 6461 23053; CX 1420 6461 23054; CA 23054 23053 23052; CX 23052 6461 6460;
  CX 1419 6904 23051; CX 23051 6460 6968; CX 1484 6968 22803; CX 6904 6460 23049; CX 1419 6460 23050; CA 23050 23049 23048; CX 23048 6460 6459; CX 1418 6903 23047;
  CX 23047 6459 6967; CX 6903 6459 23045; CX 1418 6459 23046; CA 23046 23045 23044; CX 23044 6459 6458; CX 1417 6902 23043; CX 23043 6458 6966; CX 6902 6458 23041;
  CX 1417 6458 23042; CA 23042 23041 23040; CX 23040 6458 6457; CX 1416 6901 23039; CX 23039 6457 6965; CX 6901 6457 23037; CX 1416 6457 23038; CA 23038 23037 23036;
  CX 23036 6457 6456; CX 1415 6900 23035; CX 23035 6456 6964; CX 6900 6456 23033; CX 1415 6456 23034; CA 23034 23033 23032; CX 23032 6456 6455; CX 1414 6899 23031;
  CX 23031 6455 6963; CX 6899 6455 23029; CX 1414 6455 23030; CA 23030 23029 23028; CX 23028 6455 6454; CX 1413 6898 23027; CX 23027 6454 6962; CX 6898 6454 23025;
  CX 1413 6454 23026; CA 23026 23025 23024; CX 23024 6454 6453; CX 1412 6453 23022; CX 1412 6897 23023; CX 23023 6453 6961; CX 1477 6961 22775; CX 1411 6896 23019;
  CX 6897 6453 23021; CA 23022 23021 23020; CX 23020 6453 6452; CX 23019 6452 6960; CX 1411 6452 23018; CX 1410 6895 23015; CX 6896 6452 23017; CA 23018 23017 23016;
  CX 23016 6452 6451; CX 23015 6451 6959; CX 1410 6451 23014; CX 1409 6894 23011; CX 6895 6451 23013; CA 23014 23013 23012; CX 23012 6451 6450; CX 23011 6450 6958;
  CX 1409 6450 23010; CX 1408 6893 23007; CX 6894 6450 23009; CA 23010 23009 23008; CX 23008 6450 6449; CX 23007 6449 6957; CX 1408 6449 23006; CX 1407 6383 23003;
  CX 6893 6449 23005; CA 23006 23005 23004; CX 23004 6449 6448; CX 23003 6448 6956; CX 1472 6956 22755; CX 1407 6448 23002; CX 1533 7017 22999; CX 6383 6448 23001;
  CA 23002 23001 23000; CX 23000 6448 6447; CX 22999 6574 7081; CX 1598 7081 28118; CA 1598 7081 6638; CX 1597 6638 22746; CX 1533 6574 22998; CX 1532 7016 22995;
  CX 7017 6574 22997; CA 22998 22997 22996; CX 22996 6574 6573; CX 22995 6573 7080; CX 1532 6573 22994; CX 1531 7015 22991; CX 7016 6573 22993; CA 22994 22993 22992;
  CX 22992 6573 6572; CX 22991 6572 7079; CX 1531 6572 22990; CX 1530 7014 22987; CX 7015 6572 22989; CA 22990 22989 22988; CX 22988 6572 6571; CX 22987 6571 7078;
  CX 1530 6571 22986; CX 1529 7013 22983; CX 7014 6571 22985; CA 22986 22985 22984; CX 22984 6571 6570; CX 22983 6570 7077; CX 1529 6570 22982; CX 1528 7012 22979;
  CX 7013 6570 22981; CA 22982 22981 22980; CX 22980 6570 6569; CX 22979 6569 7076; CX 1593 7076 22731; CX 1528 6569 22978; CX 1527 7011 22975; CX 7012 6569 22977;
  CA 22978 22977 22976; CX 22976 6569 6568; CX 22975 6568 7075; CX 1527 6568 22974; CX 1526 7010 22971; CX 7011 6568 22973; CA 22974 22973 22972; CX 22972 6568 6567;
  CX 22971 6567 7074; CX 1526 6567 22970; CX 1525 7009 22967; CX 7010 6567 22969; CA 22970 22969 22968; CX 22968 6567 6566; CX 22967 6566 7073; CX 1525 6566 22966;
  CX 1524 7008 22963; CX 7009 6566 22965; CA 22966 22965 22964; CX 22964 6566 6565; CX 22963 6565 7072; CX 1524 6565 22962; CX 1523 7007 22959; CX 7008 6565 22961;
  CA 22962 22961 22960; CX 22960 6565 6564; CX 22959 6564 7071; CX 1523 6564 22958; CX 1522 7006 22955; CX 7007 6564 22957; CA 22958 22957 22956; CX 22956 6564 6563;
  CX 22955 6563 7070; CX 1522 6563 22954; CX 1521 7005 22951; CX 7006 6563 22953; CA 22954 22953 22952; CX 22952 6563 6562; CX 22951 6562 7069; CX 1586 7069 22703;
  CX 1521 6562 22950; CX 1520 7004 22947; CX 7005 6562 22949; CA 22950 22949 22948; CX 22948 6562 6561; CX 22947 6561 7068; CX 1520 6561 22946; CX 1519 7003 22943;
  CX 7004 6561 22945; CA 22946 22945 22944; CX 22944 6561 6560; CX 22943 6560 7067; CX 1519 6560 22942; CX 1518 7002 22939; CX 7003 6560 22941; CA 22942 22941 22940;
  CX 22940 6560 6559; CX 22939 6559 7066; CX 1518 6559 22938; CX 1517 7001 22935; CX 7002 6559 22937; CA 22938 22937 22936; CX 22936 6559 6558; CX 22935 6558 7065;
  CX 1517 6558 22934; CX 1516 7000 22931; CX 7001 6558 22933; CA 22934 22933 22932; CX 22932 6558 6557; CX 22931 6557 7064; CX 1516 6557 22930; CX 1515 6999 22927;
  CX 7000 6557 22929; CA 22930 22929 22928; CX 22928 6557 6556; CX 22927 6556 7063; CX 1515 6556 22926; CX 1514 6998 22923; CX 6999 6556 22925; CA 22926 22925 22924;
  CX 22924 6556 6555; CX 22923 6555 7062; CX 1579 7062 22675; CX 1514 6555 22922; CX 1513 6997 22919; CX 6998 6555 22921; CA 22922 22921 22920; CX 22920 6555 6554;
  CX 22919 6554 7061; CX 1513 6554 22918; CX 1512 6996 22915; CX 6997 6554 22917; CA 22918 22917 22916; CX 22916 6554 6553; CX 22915 6553 7060; CX 1512 6553 22914;
  CX 1511 6995 22911; CX 6996 6553 22913; CA 22914 22913 22912; CX 22912 6553 6552; CX 22911 6552 7059; CX 1511 6552 22910; CX 1510 6994 22907; CX 6995 6552 22909;
  CA 22910 22909 22908; CX 22908 6552 6551; CX 22907 6551 7058; CX 1510 6551 22906; CX 1509 6993 22903; CX 6994 6551 22905; CA 22906 22905 22904; CX 22904 6551 6550;
  CX 22903 6550 7057; CX 1509 6550 22902; CX 1508 6992 22899; CX 6993 6550 22901; CA 22902 22901 22900; CX 22900 6550 6549; CX 22899 6549 7056; CX 1508 6549 22898;
  CX 1507 6991 22895; CX 6992 6549 22897; CA 22898 22897 22896; CX 22896 6549 6548; CX 22895 6548 7055; CX 1572 7055 22647; CX 1507 6548 22894; CX 1506 6990 22891;
  CX 6991 6548 22893; CA 22894 22893 22892; CX 22892 6548 6547; CX 22891 6547 7054; CX 1506 6547 22890; CX 1505 6989 22887; CX 6990 6547 22889; CA 22890 22889 22888;
  CX 22888 6547 6546; CX 22887 6546 7053; CX 1505 6546 22886; CX 1504 6988 22883; CX 6989 6546 22885; CA 22886 22885 22884; CX 22884 6546 6545; CX 22883 6545 7052;
  CX 1504 6545 22882; CX 1503 6987 22879; CX 6988 6545 22881; CA 22882 22881 22880; CX 22880 6545 6544; CX 22879 6544 7051; CX 1503 6544 22878; CX 1502 6986 22875;
  CX 6987 6544 22877; CA 22878 22877 22876; CX 22876 6544 6543; CX 22875 6543 7050; CX 1502 6543 22874; CX 1501 6985 22871; CX 6986 6543 22873; CA 22874 22873 22872;
  CX 22872 6543 6542; CX 22871 6542 7049; CX 1501 6542 22870; CX 1500 6984 22867; CX 6985 6542 22869; CA 22870 22869 22868; CX 22868 6542 6541; CX 22867 6541 7048;
  CX 1565 7048 22619; CX 1500 6541 22866; CX 1499 6983 22863; CX 6984 6541 22865; CA 22866 22865 22864; CX 22864 6541 6540; CX 22863 6540 7047; CX 1499 6540 22862;
  CX 1498 6982 22859; CX 6983 6540 22861; CA 22862 22861 22860; CX 22860 6540 6539; CX 22859 6539 7046; CX 1498 6539 22858; CX 1497 6981 22855; CX 6982 6539 22857;
  CA 22858 22857 22856; CX 22856 6539 6538; CX 22855 6538 7045; CX 1497 6538 22854; CX 1496 6980 22851; CX 6981 6538 22853; CA 22854 22853 22852; CX 22852 6538 6537;
  CX 22851 6537 7044; CX 1496 6537 22850; CX 1495 6979 22847; CX 6980 6537 22849; CA 22850 22849 22848; CX 22848 6537 6536; CX 22847 6536 7043; CX 1495 6536 22846;
  CX 1494 6978 22843; CX 6979 6536 22845; CA 22846 22845 22844; CX 22844 6536 6535; CX 6978 6535 22841; CX 22843 6535 7042; CX 1494 6535 22842; CA 22842 22841 22840;
  CX 22840 6535 6534; CX 1493 6977 22839; CX 22839 6534 7041; CX 1558 7041 22591; CX 6977 6534 22837; CX 1493 6534 22838; CA 22838 22837 22836; CX 22836 6534 6533;
  CX 1492 6533 22834; CX 1492 6976 22835; CX 22835 6533 7040; CX 6976 6533 22833; CA 22834 22833 22832; CX 22832 6533 6532; CX 22831 6532 7039; CX 6975 6532 22829;
  CX 1491 6532 22830; CA 22830 22829 22828; CX 22828 6532 6531; CX 1490 6974 22827; CX 22827 6531 7038; CX 6974 6531 22825; CX 1490 6531 22826; CA 22826 22825 22824;
  CX 22824 6531 6530; CX 1489 6973 22823; CX 22823 6530 7037; CX 1488 6972 22819; CX 1489 6530 22822; CX 6973 6530 22821; CA 22822 22821 22820; CX 22820 6530 6529;
  CX 1488 6529 22818; CX 22819 6529 7036; CX 1487 6971 22815; CX 6972 6529 22817; CA 22818 22817 22816; CX 22816 6529 6528; CX 6971 6528 22813; CX 22815 6528 7035;
  CX 1487 6528 22814; CA 22814 22813 22812; CX 22812 6528 6527; CX 1486 6970 22811; CX 22811 6527 7034; CX 1551 7034 22563; CX 6970 6527 22809; CX 1486 6527 22810;
  CA 22810 22809 22808; CX 22808 6527 6526; CX 1485 6526 22806; CX 1485 6969 22807; CX 22807 6526 7033; CX 6969 6526 22805; CA 22806 22805 22804; CX 22804 6526 6525].
(** Lines 12005-12404 of the file. *)
Definition mult2_64_30 : list cg := [
  CX 22803 6525 7032; CX 6968 6525 22801; CX 1484 6525 22802; CA 22802 22801 22800; CX 22800 6525 6524; CX 1483 6967 22799; CX 22799 6524 7031; CX 6967 6524 22797;
  CX 1483 6524 22798; CA 22798 22797 22796; CX 22796 6524 6523; CX 1482 6966 22795; CX 22795 6523 7030; CX 1481 6965 22791; CX 1482 6523 22794; CX 6966 6523 22793;
  CA 22794 22793 22792; CX 22792 6523 6522; CX 1481 6522 22790; CX 22791 6522 7029; CX 1480 6964 22787; CX 6965 6522 22789; CA 22790 22789 22788; CX 22788 6522 6521;
  CX 6964 6521 22785; CX 22787 6521 7028; CX 1480 6521 22786; CA 22786 22785 22784; CX 22784 6521 6520; CX 1479 6963 22783; CX 22783 6520 7027; CX 6963 6520 22781;
  CX 1479 6520 22782; CA 22782 22781 22780; CX 22780 6520 6519; CX 1478 6519 22778; CX 1478 6962 22779; CX 22779 6519 7026; CX 6962 6519 22777; CA 22778 22777 22776;
  CX 22776 6519 6518; CX 22775 6518 7025; CX 6961 6518 22773; CX 1477 6518 22774; CA 22774 22773 22772; CX 22772 6518 6517; CX 1476 6960 22771; CX 22771 6517 7024;
  CX 6960 6517 22769; CX 1476 6517 22770; CA 22770 22769 22768; CX 22768 6517 6516; CX 1475 6959 22767; CX 22767 6516 7023; CX 1474 6958 22763; CX 1475 6516 22766;
  CX 6959 6516 22765; CA 22766 22765 22764; CX 22764 6516 6515; CX 1474 6515 22762; CX 22763 6515 7022; CX 1473 6957 22759; CX 6958 6515 22761; CA 22762 22761 22760;
  CX 22760 6515 6514; CX 22759 6514 7021; CX 6957 6514 22757; CX 1473 6514 22758; CA 22758 22757 22756; CX 22756 6514 6513; CX 22755 6513 7020; CX 6956 6513 22753;
  CX 1472 6513 22754; CA 22754 22753 22752; CX 22752 6513 6512; CX 1471 6447 22751; CX 22751 6512 7019; CX 1597 7080 22747; CX 22747 6638 7144; CX 1662 7144 28119;
  CA 1662 7144 6702; CX 1661 6702 22494; CX 1471 6512 22750; CX 6447 6512 22749; CA 22750 22749 22748; CX 22748 6512 6511; CX 1596 7079 22743; CX 7080 6638 22745;
  CA 22746 22745 22744; CX 22744 6638 6637; CX 7079 6637 22741; CX 22743 6637 7143; CX 1596 6637 22742; CA 22742 22741 22740; CX 22740 6637 6636; CX 1595 7078 22739;
  CX 22739 6636 7142; CX 7078 6636 22737; CX 1595 6636 22738; CA 22738 22737 22736; CX 22736 6636 6635; CX 1594 6635 22734; CX 1594 7077 22735; CX 22735 6635 7141;
  CX 7077 6635 22733; CA 22734 22733 22732; CX 22732 6635 6634; CX 22731 6634 7140; CX 7076 6634 22729; CX 1593 6634 22730; CA 22730 22729 22728; CX 22728 6634 6633;
  CX 1592 7075 22727; CX 22727 6633 7139; CX 7075 6633 22725; CX 1592 6633 22726; CA 22726 22725 22724; CX 22724 6633 6632; CX 1591 7074 22723; CX 22723 6632 7138;
  CX 1590 7073 22719; CX 1591 6632 22722; CX 7074 6632 22721; CA 22722 22721 22720; CX 22720 6632 6631; CX 1590 6631 22718; CX 22719 6631 7137; CX 1589 7072 22715;
  CX 7073 6631 22717; CA 22718 22717 22716; CX 22716 6631 6630; CX 7072 6630 22713; CX 22715 6630 7136; CX 1654 7136 22467; CX 1589 6630 22714; CA 22714 22713 22712;
  CX 22712 6630 6629; CX 1588 7071 22711; CX 22711 6629 7135; CX 1653 7135 22463; CX 7071 6629 22709; CX 1588 6629 22710; CA 22710 22709 22708; CX 22708 6629 6628;
  CX 1587 6628 22706; CX 1587 7070 22707; CX 22707 6628 7134; CX 1652 7134 22459; CX 7070 6628 22705; CA 22706 22705 22704; CX 22704 6628 6627; CX 22703 6627 7133;
  CX 1651 7133 22455; CX 7069 6627 22701; CX 1586 6627 22702; CA 22702 22701 22700; CX 22700 6627 6626; CX 1585 7068 22699; CX 22699 6626 7132; CX 1650 7132 22451;
  CX 7068 6626 22697; CX 1585 6626 22698; CA 22698 22697 22696; CX 22696 6626 6625; CX 1584 7067 22695; CX 22695 6625 7131; CX 1649 7131 22447; CX 1583 7066 22691;
  CX 1584 6625 22694; CX 7067 6625 22693; CA 22694 22693 22692; CX 22692 6625 6624; CX 1583 6624 22690; CX 22691 6624 7130; CX 1648 7130 22443; CX 1582 7065 22687;
  CX 7066 6624 22689; CA 22690 22689 22688; CX 22688 6624 6623; CX 7065 6623 22685; CX 22687 6623 7129; CX 1647 7129 22439; CX 1582 6623 22686; CA 22686 22685 22684;
  CX 22684 6623 6622; CX 1581 7064 22683; CX 22683 6622 7128; CX 1646 7128 22435; CX 7064 6622 22681; CX 1581 6622 22682; CA 22682 22681 22680; CX 22680 6622 6621;
  CX 1580 6621 22678; CX 1580 7063 22679; CX 22679 6621 7127; CX 1645 7127 22431; CX 7063 6621 22677; CA 22678 22677 22676; CX 22676 6621 6620; CX 22675 6620 7126;
  CX 1644 7126 22427; CX 7062 6620 22673; CX 1579 6620 22674; CA 22674 22673 22672; CX 22672 6620 6619; CX 1578 7061 22671; CX 22671 6619 7125; CX 1643 7125 22423;
  CX 7061 6619 22669; CX 1578 6619 22670; CA 22670 22669 22668; CX 22668 6619 6618; CX 1577 7060 22667; CX 22667 6618 7124; CX 1642 7124 22419; CX 1576 7059 22663;
  CX 1577 6618 22666; CX 7060 6618 22665; CA 22666 22665 22664; CX 22664 6618 6617; CX 1576 6617 22662; CX 22663 6617 7123; CX 1641 7123 22415; CX 1575 7058 22659;
  CX 7059 6617 22661; CA 22662 22661 22660; CX 22660 6617 6616; CX 7058 6616 22657; CX 22659 6616 7122; CX 1640 7122 22411; CX 1575 6616 22658; CA 22658 22657 22656;
  CX 22656 6616 6615; CX 1574 7057 22655; CX 22655 6615 7121; CX 1639 7121 22407; CX 7057 6615 22653; CX 1574 6615 22654; CA 22654 22653 22652; CX 22652 6615 6614;
  CX 1573 6614 22650; CX 1573 7056 22651; CX 22651 6614 7120; CX 1638 7120 22403; CX 7056 6614 22649; CA 22650 22649 22648; CX 22648 6614 6613; CX 22647 6613 7119;
  CX 1637 7119 22399; CX 7055 6613 22645; CX 1572 6613 22646; CA 22646 22645 22644; CX 22644 6613 6612; CX 1571 7054 22643; CX 22643 6612 7118; CX 1636 7118 22395;
  CX 7054 6612 22641; CX 1571 6612 22642; CA 22642 22641 22640; CX 22640 6612 6611; CX 1570 7053 22639; CX 22639 6611 7117; CX 1635 7117 22391; CX 1569 7052 22635;
  CX 1570 6611 22638; CX 7053 6611 22637; CA 22638 22637 22636; CX 22636 6611 6610; CX 1569 6610 22634; CX 22635 6610 7116; CX 1634 7116 22387; CX 1568 7051 22631;
  CX 7052 6610 22633; CA 22634 22633 22632; CX 22632 6610 6609; CX 7051 6609 22629; CX 22631 6609 7115; CX 1633 7115 22383; CX 1568 6609 22630; CA 22630 22629 22628;
  CX 22628 6609 6608; CX 1567 7050 22627; CX 22627 6608 7114; CX 1632 7114 22379; CX 7050 6608 22625; CX 1567 6608 22626; CA 22626 22625 22624; CX 22624 6608 6607;
  CX 1566 6607 22622; CX 1566 7049 22623; CX 22623 6607 7113; CX 1631 7113 22375; CX 7049 6607 22621; CA 22622 22621 22620; CX 22620 6607 6606; CX 22619 6606 7112;
  CX 1630 7112 22371; CX 7048 6606 22617; CX 1565 6606 22618; CA 22618 22617 22616; CX 22616 6606 6605; CX 1564 7047 22615; CX 22615 6605 7111; CX 1629 7111 22367;
  CX 7047 6605 22613; CX 1564 6605 22614; CA 22614 22613 22612; CX 22612 6605 6604; CX 1563 7046 22611; CX 22611 6604 7110; CX 1628 7110 22363; CX 1562 7045 22607;
  CX 1563 6604 22610; CX 7046 6604 22609; CA 22610 22609 22608; CX 22608 6604 6603; CX 1562 6603 22606; CX 22607 6603 7109; CX 1627 7109 22359; CX 1561 7044 22603;
  CX 7045 6603 22605; CA 22606 22605 22604; CX 22604 6603 6602; CX 7044 6602 22601; CX 22603 6602 7108; CX 1626 7108 22355; CX 1561 6602 22602; CA 22602 22601 22600;
  CX 22600 6602 6601; CX 1560 7043 22599; CX 22599 6601 7107; CX 1625 7107 22351; CX 7043 6601 22597; CX 1560 6601 22598; CA 22598 22597 22596; CX 22596 6601 6600;
  CX 1559 6600 22594; CX 1559 7042 22595; CX 22595 6600 7106; CX 1624 7106 22347; CX 7042 6600 22593; CA 22594 22593 22592; CX 22592 6600 6599; CX 22591 6599 7105;
  CX 1623 7105 22343; CX 7041 6599 22589; CX 1558 6599 22590; CA 22590 22589 22588; CX 22588 6599 6598; CX 1557 7040 22587; CX 22587 6598 7104; CX 1622 7104 22339;
  CX 7040 6598 22585; CX 1557 6598 22586; CA 22586 22585 22584; CX 22584 6598 6597; CX 1556 7039 22583; CX 22583 6597 7103; CX 1621 7103 22335; CX 1555 7038 22579;
  CX 1556 6597 22582; CX 7039 6597 22581; CA 22582 22581 22580; CX 22580 6597 6596; CX 1555 6596 22578; CX 22579 6596 7102; CX 1620 7102 22331; CX 1554 7037 22575;
  CX 7038 6596 22577; CA 22578 22577 22576; CX 22576 6596 6595; CX 7037 6595 22573; CX 22575 6595 7101; CX 1619 7101 22327; CX 1554 6595 22574; CA 22574 22573 22572;
  CX 22572 6595 6594; CX 1553 7036 22571; CX 22571 6594 7100; CX 1618 7100 22323; CX 7036 6594 22569; CX 1553 6594 22570; CA 22570 22569 22568; CX 22568 6594 6593;
  CX 1552 6593 22566; CX 1552 7035 22567; CX 22567 6593 7099; CX 1617 7099 22319; CX 7035 6593 22565; CA 22566 22565 22564; CX 22564 6593 6592; CX 22563 6592 7098;
  CX 1616 7098 22315; CX 7034 6592 22561; CX 1551 6592 22562; CA 22562 22561 22560; CX 22560 6592 6591; CX 1550 7033 22559; CX 22559 6591 7097; CX 1615 7097 22311].
(** Lines 12405-12804 of the file. *)
Definition mult2_64_31 : list cg := [
  CX 7033 6591 22557; CX 1550 6591 22558; CA 22558 22557 22556; CX 22556 6591 6590; CX 1549 7032 22555; CX 22555 6590 7096; CX 1614 7096 22307; CX 1548 7031 22551;
  CX 1549 6590 22554; CX 7032 6590 22553; CA 22554 22553 22552; CX 22552 6590 6589; CX 1548 6589 22550; CX 22551 6589 7095; CX 1613 7095 22303; CX 1547 7030 22547;
  CX 7031 6589 22549; CA 22550 22549 22548; CX 22548 6589 6588; CX 1547 6588 22546; CX 22547 6588 7094; CX 1612 7094 22299; CX 1546 7029 22543; CX 7030 6588 22545;
  CA 22546 22545 22544; CX 22544 6588 6587; CX 1546 6587 22542; CX 22543 6587 7093; CX 1611 7093 22295; CX 1545 7028 22539; CX 7029 6587 22541; CA 22542 22541 22540;
  CX 22540 6587 6586; CX 1545 6586 22538; CX 22539 6586 7092; CX 1610 7092 22291; CX 1544 7027 22535; CX 7028 6586 22537; CA 22538 22537 22536; CX 22536 6586 6585;
  CX 22535 6585 7091; CX 1544 6585 22534; CX 1609 7091 22287; CX 1543 7026 22531; CX 7027 6585 22533; CA 22534 22533 22532; CX 22532 6585 6584; CX 22531 6584 7090;
  CX 1608 7090 22283; CX 1543 6584 22530; CX 1542 7025 22527; CX 7026 6584 22529; CA 22530 22529 22528; CX 22528 6584 6583; CX 22527 6583 7089; CX 1607 7089 22279;
  CX 1542 6583 22526; CX 1541 7024 22523; CX 7025 6583 22525; CA 22526 22525 22524; CX 22524 6583 6582; CX 22523 6582 7088; CX 1541 6582 22522; CX 1606 7088 22275;
  CX 1540 7023 22519; CX 7024 6582 22521; CA 22522 22521 22520; CX 22520 6582 6581; CX 22519 6581 7087; CX 1540 6581 22518; CX 1605 7087 22271; CX 1539 7022 22515;
  CX 7023 6581 22517; CA 22518 22517 22516; CX 22516 6581 6580; CX 22515 6580 7086; CX 1539 6580 22514; CX 1604 7086 22267; CX 1538 7021 22511; CX 7022 6580 22513;
  CA 22514 22513 22512; CX 22512 6580 6579; CX 22511 6579 7085; CX 1538 6579 22510; CX 1603 7085 22263; CX 1537 7020 22507; CX 7021 6579 22509; CA 22510 22509 22508;
  CX 22508 6579 6578; CX 1537 6578 22506; CX 22507 6578 7084; CX 1602 7084 22259; CX 1536 7019 22503; CX 7020 6578 22505; CA 22506 22505 22504; CX 22504 6578 6577;
  CX 22503 6577 7083; CX 1536 6577 22502; CX 1601 7083 22255; CX 1535 6511 22499; CX 7019 6577 22501; CA 22502 22501 22500; CX 22500 6577 6576; CX 22499 6576 7082;
  CX 1535 6576 22498; CX 1600 7082 22251; CX 1661 7143 22495; CX 22495 6702 7207; CX 1726 7207 28120; CA 1726 7207 6766; CX 1725 6766 22242; CX 6511 6576 22497;
  CA 22498 22497 22496; CX 22496 6576 6575; CX 1599 6575 22247; CX 1660 7142 22491; CX 7143 6702 22493; CA 22494 22493 22492; CX 22492 6702 6701; CX 22491 6701 7206;
  CX 1660 6701 22490; CX 1725 7206 22243; CX 22243 6766 7270; CX 1790 7270 28121; CA 1790 7270 7334; CX 7206 6766 22241; CA 22242 22241 22240; CX 22240 6766 6765;
  CX 1724 6765 22238; CX 1789 7334 21990; CX 1659 7141 22487; CX 7142 6701 22489; CA 22490 22489 22488; CX 22488 6701 6700; CX 22487 6700 7205; CX 1659 6700 22486;
  CX 1724 7205 22239; CX 22239 6765 7269; CX 7205 6765 22237; CA 22238 22237 22236; CX 22236 6765 6764; CX 1723 6764 22234; CX 1789 7269 21991; CX 21991 7334 7845;
  CX 1854 7845 28122; CA 1854 7845 7398; CX 7269 7334 21989; CA 21990 21989 21988; CX 21988 7334 7333; CX 1788 7333 21986; CX 1853 7398 21738; CX 1658 7140 22483;
  CX 7141 6700 22485; CA 22486 22485 22484; CX 22484 6700 6699; CX 22483 6699 7204; CX 1658 6699 22482; CX 1723 7204 22235; CX 22235 6764 7268; CX 7204 6764 22233;
  CA 22234 22233 22232; CX 22232 6764 6763; CX 1722 6763 22230; CX 1788 7268 21987; CX 21987 7333 7844; CX 7268 7333 21985; CA 21986 21985 21984; CX 21984 7333 7332;
  CX 1787 7332 21982; CX 1853 7844 21739; CX 21739 7398 7908; CX 1918 7908 28123; CA 1918 7908 7462; CX 7844 7398 21737; CA 21738 21737 21736; CX 21736 7398 7397;
  CX 1852 7397 21734; CX 1917 7462 21486; CX 1657 7139 22479; CX 7140 6699 22481; CA 22482 22481 22480; CX 22480 6699 6698; CX 22479 6698 7203; CX 1657 6698 22478;
  CX 1722 7203 22231; CX 22231 6763 7267; CX 7203 6763 22229; CA 22230 22229 22228; CX 22228 6763 6762; CX 1721 6762 22226; CX 1787 7267 21983; CX 21983 7332 7843;
  CX 7267 7332 21981; CA 21982 21981 21980; CX 21980 7332 7331; CX 1786 7331 21978; CX 1852 7843 21735; CX 21735 7397 7907; CX 7843 7397 21733; CA 21734 21733 21732;
  CX 21732 7397 7396; CX 1851 7396 21730; CX 1917 7907 21487; CX 21487 7462 7971; CX 1982 7971 28124; CA 1982 7971 7526; CX 7907 7462 21485; CA 21486 21485 21484;
  CX 21484 7462 7461; CX 1916 7461 21482; CX 1981 7526 21234; CX 1656 7138 22475; CX 7139 6698 22477; CA 22478 22477 22476; CX 22476 6698 6697; CX 1656 6697 22474;
  CX 7138 6697 22473; CX 22475 6697 7202; CX 1721 7202 22227; CX 22227 6762 7266; CX 7202 6762 22225; CA 22226 22225 22224; CX 22224 6762 6761; CX 1720 6761 22222;
  CX 1786 7266 21979; CX 21979 7331 7842; CX 7266 7331 21977; CA 21978 21977 21976; CX 21976 7331 7330; CX 1785 7330 21974; CX 1851 7842 21731; CX 21731 7396 7906;
  CX 7842 7396 21729; CA 21730 21729 21728; CX 21728 7396 7395; CX 1850 7395 21726; CX 1916 7906 21483; CX 21483 7461 7970; CX 7906 7461 21481; CA 21482 21481 21480;
  CX 21480 7461 7460; CX 1915 7460 21478; CX 1981 7970 21235; CX 21235 7526 8034; CX 2046 8034 28125; CA 2046 8034 7590; CX 7970 7526 21233; CA 21234 21233 21232;
  CX 21232 7526 7525; CX 1980 7525 21230; CX 2045 7590 20982; CA 22474 22473 22472; CX 22472 6697 6696; CX 1655 6696 22470; CX 1655 7137 22471; CX 22471 6696 7201;
  CX 1720 7201 22223; CX 22223 6761 7265; CX 7201 6761 22221; CA 22222 22221 22220; CX 22220 6761 6760; CX 1719 6760 22218; CX 1785 7265 21975; CX 21975 7330 7841;
  CX 7265 7330 21973; CA 21974 21973 21972; CX 21972 7330 7329; CX 1784 7329 21970; CX 1850 7841 21727; CX 21727 7395 7905; CX 7841 7395 21725; CA 21726 21725 21724;
  CX 21724 7395 7394; CX 1849 7394 21722; CX 1915 7905 21479; CX 21479 7460 7969; CX 7905 7460 21477; CA 21478 21477 21476; CX 21476 7460 7459; CX 1914 7459 21474;
  CX 1980 7969 21231; CX 21231 7525 8033; CX 7969 7525 21229; CA 21230 21229 21228; CX 21228 7525 7524; CX 1979 7524 21226; CX 2045 8033 20983; CX 20983 7590 8097;
  CX 2110 8097 28126; CA 2110 8097 7654; CX 8033 7590 20981; CA 20982 20981 20980; CX 20980 7590 7589; CX 2044 7589 20978; CX 2109 7654 20730; CX 7137 6696 22469;
  CA 22470 22469 22468; CX 22468 6696 6695; CX 7136 6695 22465; CX 22467 6695 7200; CX 1654 6695 22466; CA 22466 22465 22464; CX 22464 6695 6694; CX 1653 6694 22462;
  CX 22463 6694 7199; CX 1719 7200 22219; CX 22219 6760 7264; CX 1718 7199 22215; CX 7200 6760 22217; CA 22218 22217 22216; CX 22216 6760 6759; CX 22215 6759 7263;
  CX 1718 6759 22214; CX 7199 6759 22213; CA 22214 22213 22212; CX 22212 6759 6758; CX 1717 6758 22210; CX 1784 7264 21971; CX 21971 7329 7840; CX 7264 7329 21969;
  CA 21970 21969 21968; CX 21968 7329 7328; CX 1783 7328 21966; CX 1783 7263 21967; CX 21967 7328 7839; CX 7263 7328 21965; CA 21966 21965 21964; CX 21964 7328 7327;
  CX 1782 7327 21962; CX 1849 7840 21723; CX 21723 7394 7904; CX 1848 7839 21719; CX 7840 7394 21721; CA 21722 21721 21720; CX 21720 7394 7393; CX 21719 7393 7903;
  CX 1848 7393 21718; CX 7839 7393 21717; CA 21718 21717 21716; CX 21716 7393 7392; CX 1847 7392 21714; CX 1914 7904 21475; CX 21475 7459 7968; CX 7904 7459 21473;
  CA 21474 21473 21472; CX 21472 7459 7458; CX 1913 7903 21471; CX 21471 7458 7967; CX 1913 7458 21470; CX 7903 7458 21469; CA 21470 21469 21468; CX 21468 7458 7457;
  CX 1912 7457 21466; CX 1979 7968 21227; CX 21227 7524 8032; CX 7968 7524 21225; CA 21226 21225 21224; CX 21224 7524 7523; CX 1978 7523 21222; CX 1978 7967 21223;
  CX 21223 7523 8031; CX 7967 7523 21221; CA 21222 21221 21220; CX 21220 7523 7522; CX 1977 7522 21218; CX 2044 8032 20979; CX 20979 7589 8096; CX 2043 8031 20975;
  CX 8032 7589 20977; CA 20978 20977 20976; CX 20976 7589 7588; CX 20975 7588 8095; CX 2043 7588 20974; CX 8031 7588 20973; CA 20974 20973 20972; CX 20972 7588 7587;
  CX 2042 7587 20970; CX 2109 8096 20731; CX 20731 7654 8160; CX 2174 8160 28127; CA 2174 8160 7718; CX 8096 7654 20729; CA 20730 20729 20728; CX 20728 7654 7653;
  CX 2108 8095 20727; CX 20727 7653 8159; CX 2108 7653 20726; CX 8095 7653 20725; CA 20726 20725 20724; CX 20724 7653 7652; CX 2107 7652 20722; CX 2173 7718 20478;
  CX 2173 8159 20479; CX 20479 7718 8223; CX 2238 8223 28128; CA 2238 8223 7782; CX 8159 7718 20477; CA 20478 20477 20476; CX 20476 7718 7717; CX 2172 7717 20474].
(** Lines 12805-13204 of the file. *)
Definition mult2_64_32 : list cg := [
  CX 2237 7782 20226; CX 7135 6694 22461; CA 22462 22461 22460; CX 22460 6694 6693; CX 1652 6693 22458; CX 22459 6693 7198; CX 7134 6693 22457; CA 22458 22457 22456;
  CX 22456 6693 6692; CX 1651 6692 22454; CX 22455 6692 7197; CX 7133 6692 22453; CA 22454 22453 22452; CX 22452 6692 6691; CX 22451 6691 7196; CX 1650 6691 22450;
  CX 7132 6691 22449; CA 22450 22449 22448; CX 22448 6691 6690; CX 22447 6690 7195; CX 7131 6690 22445; CX 1649 6690 22446; CA 22446 22445 22444; CX 22444 6690 6689;
  CX 22443 6689 7194; CX 7130 6689 22441; CX 1648 6689 22442; CA 22442 22441 22440; CX 22440 6689 6688; CX 22439 6688 7193; CX 1647 6688 22438; CX 7129 6688 22437;
  CA 22438 22437 22436; CX 22436 6688 6687; CX 22435 6687 7192; CX 1646 6687 22434; CX 7128 6687 22433; CA 22434 22433 22432; CX 22432 6687 6686; CX 22431 6686 7191;
  CX 1645 6686 22430; CX 7127 6686 22429; CA 22430 22429 22428; CX 22428 6686 6685; CX 22427 6685 7190; CX 7126 6685 22425; CX 1644 6685 22426; CA 22426 22425 22424;
  CX 22424 6685 6684; CX 22423 6684 7189; CX 7125 6684 22421; CX 1643 6684 22422; CA 22422 22421 22420; CX 22420 6684 6683; CX 22419 6683 7188; CX 1642 6683 22418;
  CX 7124 6683 22417; CA 22418 22417 22416; CX 22416 6683 6682; CX 22415 6682 7187; CX 1641 6682 22414; CX 7123 6682 22413; CA 22414 22413 22412; CX 22412 6682 6681;
  CX 22411 6681 7186; CX 1640 6681 22410; CX 7122 6681 22409; CA 22410 22409 22408; CX 22408 6681 6680; CX 22407 6680 7185; CX 7121 6680 22405; CX 1639 6680 22406;
  CA 22406 22405 22404; CX 22404 6680 6679; CX 22403 6679 7184; CX 7120 6679 22401; CX 1638 6679 22402; CA 22402 22401 22400; CX 22400 6679 6678; CX 22399 6678 7183;
  CX 1637 6678 22398; CX 7119 6678 22397; CA 22398 22397 22396; CX 22396 6678 6677; CX 22395 6677 7182; CX 1636 6677 22394; CX 7118 6677 22393; CA 22394 22393 22392;
  CX 22392 6677 6676; CX 22391 6676 7181; CX 1635 6676 22390; CX 7117 6676 22389; CA 22390 22389 22388; CX 22388 6676 6675; CX 22387 6675 7180; CX 1634 6675 22386;
  CX 7116 6675 22385; CA 22386 22385 22384; CX 22384 6675 6674; CX 22383 6674 7179; CX 1633 6674 22382; CX 7115 6674 22381; CA 22382 22381 22380; CX 22380 6674 6673;
  CX 1632 6673 22378; CX 22379 6673 7178; CX 7114 6673 22377; CA 22378 22377 22376; CX 22376 6673 6672; CX 1631 6672 22374; CX 22375 6672 7177; CX 7113 6672 22373;
  CA 22374 22373 22372; CX 22372 6672 6671; CX 22371 6671 7176; CX 1630 6671 22370; CX 7112 6671 22369; CA 22370 22369 22368; CX 22368 6671 6670; CX 22367 6670 7175;
  CX 7111 6670 22365; CX 1629 6670 22366; CA 22366 22365 22364; CX 22364 6670 6669; CX 22363 6669 7174; CX 1628 6669 22362; CX 7110 6669 22361; CA 22362 22361 22360;
  CX 22360 6669 6668; CX 1627 6668 22358; CX 22359 6668 7173; CX 7109 6668 22357; CA 22358 22357 22356; CX 22356 6668 6667; CX 1626 6667 22354; CX 22355 6667 7172;
  CX 7108 6667 22353; CA 22354 22353 22352; CX 22352 6667 6666; CX 22351 6666 7171; CX 1625 6666 22350; CX 7107 6666 22349; CA 22350 22349 22348; CX 22348 6666 6665;
  CX 22347 6665 7170; CX 7106 6665 22345; CX 1624 6665 22346; CA 22346 22345 22344; CX 22344 6665 6664; CX 22343 6664 7169; CX 7105 6664 22341; CX 1623 6664 22342;
  CA 22342 22341 22340; CX 22340 6664 6663; CX 22339 6663 7168; CX 1622 6663 22338; CX 7104 6663 22337; CA 22338 22337 22336; CX 22336 6663 6662; CX 22335 6662 7167;
  CX 1621 6662 22334; CX 7103 6662 22333; CA 22334 22333 22332; CX 22332 6662 6661; CX 22331 6661 7166; CX 1620 6661 22330; CX 7102 6661 22329; CA 22330 22329 22328;
  CX 22328 6661 6660; CX 22327 6660 7165; CX 7101 6660 22325; CX 1619 6660 22326; CA 22326 22325 22324; CX 22324 6660 6659; CX 22323 6659 7164; CX 7100 6659 22321;
  CX 1618 6659 22322; CA 22322 22321 22320; CX 22320 6659 6658; CX 22319 6658 7163; CX 1617 6658 22318; CX 7099 6658 22317; CA 22318 22317 22316; CX 22316 6658 6657;
  CX 22315 6657 7162; CX 1616 6657 22314; CX 7098 6657 22313; CA 22314 22313 22312; CX 22312 6657 6656; CX 22311 6656 7161; CX 1615 6656 22310; CX 7097 6656 22309;
  CA 22310 22309 22308; CX 22308 6656 6655; CX 22307 6655 7160; CX 7096 6655 22305; CX 1614 6655 22306; CA 22306 22305 22304; CX 22304 6655 6654; CX 22303 6654 7159;
  CX 7095 6654 22301; CX 1613 6654 22302; CA 22302 22301 22300; CX 22300 6654 6653; CX 22299 6653 7158; CX 1612 6653 22298; CX 7094 6653 22297; CA 22298 22297 22296;
  CX 22296 6653 6652; CX 22295 6652 7157; CX 1611 6652 22294; CX 7093 6652 22293; CA 22294 22293 22292; CX 22292 6652 6651; CX 22291 6651 7156; CX 1610 6651 22290;
  CX 7092 6651 22289; CA 22290 22289 22288; CX 22288 6651 6650; CX 22287 6650 7155; CX 1609 6650 22286; CX 7091 6650 22285; CA 22286 22285 22284; CX 22284 6650 6649;
  CX 22283 6649 7154; CX 1608 6649 22282; CX 7090 6649 22281; CA 22282 22281 22280; CX 22280 6649 6648; CX 22279 6648 7153; CX 1607 6648 22278; CX 7089 6648 22277;
  CA 22278 22277 22276; CX 22276 6648 6647; CX 22275 6647 7152; CX 1606 6647 22274; CX 7088 6647 22273; CA 22274 22273 22272; CX 22272 6647 6646; CX 22271 6646 7151;
  CX 1605 6646 22270; CX 7087 6646 22269; CA 22270 22269 22268; CX 22268 6646 6645; CX 22267 6645 7150; CX 1604 6645 22266; CX 7086 6645 22265; CA 22266 22265 22264;
  CX 22264 6645 6644; CX 22263 6644 7149; CX 7085 6644 22261; CX 1603 6644 22262; CA 22262 22261 22260; CX 22260 6644 6643; CX 22259 6643 7148; CX 1602 6643 22258;
  CX 7084 6643 22257; CA 22258 22257 22256; CX 22256 6643 6642; CX 22255 6642 7147; CX 1666 7147 22007; CX 1601 6642 22254; CX 7083 6642 22253; CA 22254 22253 22252;
  CX 22252 6642 6641; CX 22251 6641 7146; CX 1600 6641 22250; CX 7082 6641 22249; CA 22250 22249 22248; CX 22248 6641 6640; CX 22247 6640 7145; CX 1599 6640 22246;
  CX 6575 6640 22245; CA 22246 22245 22244; CX 22244 6640 6639; CX 1717 7198 22211; CX 22211 6758 7262; CX 1716 7197 22207; CX 7198 6758 22209; CA 22210 22209 22208;
  CX 22208 6758 6757; CX 22207 6757 7261; CX 1716 6757 22206; CX 1715 7196 22203; CX 7197 6757 22205; CA 22206 22205 22204; CX 22204 6757 6756; CX 22203 6756 7260;
  CX 1715 6756 22202; CX 1714 7195 22199; CX 7196 6756 22201; CA 22202 22201 22200; CX 22200 6756 6755; CX 22199 6755 7259; CX 1714 6755 22198; CX 1713 7194 22195;
  CX 7195 6755 22197; CA 22198 22197 22196; CX 22196 6755 6754; CX 22195 6754 7258; CX 1713 6754 22194; CX 1712 7193 22191; CX 7194 6754 22193; CA 22194 22193 22192;
  CX 22192 6754 6753; CX 22191 6753 7257; CX 1712 6753 22190; CX 1711 7192 22187; CX 7193 6753 22189; CA 22190 22189 22188; CX 22188 6753 6752; CX 22187 6752 7256;
  CX 1711 6752 22186; CX 1710 7191 22183; CX 7192 6752 22185; CA 22186 22185 22184; CX 22184 6752 6751; CX 22183 6751 7255; CX 1710 6751 22182; CX 1709 7190 22179;
  CX 7191 6751 22181; CA 22182 22181 22180; CX 22180 6751 6750; CX 22179 6750 7254; CX 1709 6750 22178; CX 1708 7189 22175; CX 7190 6750 22177; CA 22178 22177 22176;
  CX 22176 6750 6749; CX 22175 6749 7253; CX 1708 6749 22174; CX 1707 7188 22171; CX 7189 6749 22173; CA 22174 22173 22172; CX 22172 6749 6748; CX 22171 6748 7252;
  CX 1707 6748 22170; CX 1706 7187 22167; CX 7188 6748 22169; CA 22170 22169 22168; CX 22168 6748 6747; CX 22167 6747 7251; CX 1706 6747 22166; CX 1705 7186 22163;
  CX 7187 6747 22165; CA 22166 22165 22164; CX 22164 6747 6746; CX 22163 6746 7250; CX 1705 6746 22162; CX 1704 7185 22159; CX 7186 6746 22161; CA 22162 22161 22160;
  CX 22160 6746 6745; CX 22159 6745 7249; CX 1704 6745 22158; CX 1703 7184 22155; CX 7185 6745 22157; CA 22158 22157 22156; CX 22156 6745 6744; CX 22155 6744 7248;
  CX 1703 6744 22154; CX 1702 7183 22151; CX 7184 6744 22153; CA 22154 22153 22152; CX 22152 6744 6743; CX 22151 6743 7247; CX 1702 6743 22150; CX 1701 7182 22147;
  CX 7183 6743 22149; CA 22150 22149 22148; CX 22148 6743 6742; CX 22147 6742 7246; CX 1701 6742 22146; CX 1700 7181 22143; CX 7182 6742 22145; CA 22146 22145 22144;
  CX 22144 6742 6741; CX 22143 6741 7245; CX 1700 6741 22142; CX 1699 7180 22139; CX 7181 6741 22141; CA 22142 22141 22140; CX 22140 6741 6740; CX 22139 6740 7244;
  CX 1699 6740 22138; CX 1698 7179 22135; CX 7180 6740 22137; CA 22138 22137 22136; CX 22136 6740 6739; CX 22135 6739 7243; CX 1698 6739 22134; CX 1697 7178 22131;
  CX 7179 6739 22133; CA 22134 22133 22132; CX 22132 6739 6738; CX 22131 6738 7242; CX 1697 6738 22130; CX 1696 7177 22127; CX 7178 6738 22129; CA 22130 22129 22128].
(** Lines 13205-13604 of the file. *)
Definition mult2_64_33 : list cg := [
  CX 22128 6738 6737; CX 22127 6737 7241; CX 1696 6737 22126; CX 1695 7176 22123; CX 7177 6737 22125; CA 22126 22125 22124; CX 22124 6737 6736; CX 22123 6736 7240;
  CX 1695 6736 22122; CX 1694 7175 22119; CX 7176 6736 22121; CA 22122 22121 22120; CX 22120 6736 6735; CX 22119 6735 7239; CX 1694 6735 22118; CX 1693 7174 22115;
  CX 7175 6735 22117; CA 22118 22117 22116; CX 22116 6735 6734; CX 22115 6734 7238; CX 1693 6734 22114; CX 1692 7173 22111; CX 7174 6734 22113; CA 22114 22113 22112;
  CX 22112 6734 6733; CX 22111 6733 7237; CX 1692 6733 22110; CX 1691 7172 22107; CX 7173 6733 22109; CA 22110 22109 22108; CX 22108 6733 6732; CX 22107 6732 7236;
  CX 1691 6732 22106; CX 1690 7171 22103; CX 7172 6732 22105; CA 22106 22105 22104; CX 22104 6732 6731; CX 22103 6731 7235; CX 1690 6731 22102; CX 1689 7170 22099;
  CX 7171 6731 22101; CA 22102 22101 22100; CX 22100 6731 6730; CX 22099 6730 7234; CX 1689 6730 22098; CX 1688 7169 22095; CX 7170 6730 22097; CA 22098 22097 22096;
  CX 22096 6730 6729; CX 22095 6729 7233; CX 1688 6729 22094; CX 1687 7168 22091; CX 7169 6729 22093; CA 22094 22093 22092; CX 22092 6729 6728; CX 22091 6728 7232;
  CX 1687 6728 22090; CX 1686 7167 22087; CX 7168 6728 22089; CA 22090 22089 22088; CX 22088 6728 6727; CX 22087 6727 7231; CX 1686 6727 22086; CX 1685 7166 22083;
  CX 7167 6727 22085; CA 22086 22085 22084; CX 22084 6727 6726; CX 22083 6726 7230; CX 1685 6726 22082; CX 1684 7165 22079; CX 7166 6726 22081; CA 22082 22081 22080;
  CX 22080 6726 6725; CX 22079 6725 7229; CX 1684 6725 22078; CX 1683 7164 22075; CX 7165 6725 22077; CA 22078 22077 22076; CX 22076 6725 6724; CX 22075 6724 7228;
  CX 1683 6724 22074; CX 1682 7163 22071; CX 7164 6724 22073; CA 22074 22073 22072; CX 22072 6724 6723; CX 22071 6723 7227; CX 1682 6723 22070; CX 1681 7162 22067;
  CX 7163 6723 22069; CA 22070 22069 22068; CX 22068 6723 6722; CX 22067 6722 7226; CX 1681 6722 22066; CX 1680 7161 22063; CX 7162 6722 22065; CA 22066 22065 22064;
  CX 22064 6722 6721; CX 22063 6721 7225; CX 1680 6721 22062; CX 1679 7160 22059; CX 7161 6721 22061; CA 22062 22061 22060; CX 22060 6721 6720; CX 22059 6720 7224;
  CX 1679 6720 22058; CX 1678 7159 22055; CX 7160 6720 22057; CA 22058 22057 22056; CX 22056 6720 6719; CX 22055 6719 7223; CX 1678 6719 22054; CX 1677 7158 22051;
  CX 7159 6719 22053; CA 22054 22053 22052; CX 22052 6719 6718; CX 22051 6718 7222; CX 1677 6718 22050; CX 1676 7157 22047; CX 7158 6718 22049; CA 22050 22049 22048;
  CX 22048 6718 6717; CX 22047 6717 7221; CX 1676 6717 22046; CX 1675 7156 22043; CX 7157 6717 22045; CA 22046 22045 22044; CX 22044 6717 6716; CX 22043 6716 7220;
  CX 1675 6716 22042; CX 7156 6716 22041; CA 22042 22041 22040; CX 22040 6716 6715; CX 7155 6715 22037; CX 1674 7155 22039; CX 22039 6715 7219; CX 1674 6715 22038;
  CA 22038 22037 22036; CX 22036 6715 6714; CX 7154 6714 22033; CX 1673 7154 22035; CX 22035 6714 7218; CX 1673 6714 22034; CA 22034 22033 22032; CX 22032 6714 6713;
  CX 7153 6713 22029; CX 1672 7153 22031; CX 22031 6713 7217; CX 1672 6713 22030; CA 22030 22029 22028; CX 22028 6713 6712; CX 7152 6712 22025; CX 1671 7152 22027;
  CX 22027 6712 7216; CX 1671 6712 22026; CA 22026 22025 22024; CX 22024 6712 6711; CX 7151 6711 22021; CX 1670 7151 22023; CX 22023 6711 7215; CX 1670 6711 22022;
  CA 22022 22021 22020; CX 22020 6711 6710; CX 7150 6710 22017; CX 1669 7150 22019; CX 22019 6710 7214; CX 1669 6710 22018; CA 22018 22017 22016; CX 22016 6710 6709;
  CX 7149 6709 22013; CX 1668 7149 22015; CX 22015 6709 7213; CX 1668 6709 22014; CA 22014 22013 22012; CX 22012 6709 6708; CX 7148 6708 22009; CX 1667 7148 22011;
  CX 22011 6708 7212; CX 1667 6708 22010; CA 22010 22009 22008; CX 22008 6708 6707; CX 22007 6707 7211; CX 1666 6707 22006; CX 7147 6707 22005; CA 22006 22005 22004;
  CX 22004 6707 6706; CX 1665 6706 22002; CX 1665 7146 22003; CX 22003 6706 7210; CX 1730 7210 21755; CX 7146 6706 22001; CA 22002 22001 22000; CX 22000 6706 6705;
  CX 1664 6705 21998; CX 1664 7145 21999; CX 21999 6705 7209; CX 7145 6705 21997; CA 21998 21997 21996; CX 21996 6705 6704; CX 1663 6704 21994; CX 1663 6639 21995;
  CX 21995 6704 7208; CX 6639 6704 21993; CA 21994 21993 21992; CX 21992 6704 6703; CX 1782 7262 21963; CX 21963 7327 7838; CX 7262 7327 21961; CA 21962 21961 21960;
  CX 21960 7327 7326; CX 1781 7326 21958; CX 1781 7261 21959; CX 21959 7326 7837; CX 7261 7326 21957; CA 21958 21957 21956; CX 21956 7326 7325; CX 1780 7325 21954;
  CX 1780 7260 21955; CX 21955 7325 7836; CX 7260 7325 21953; CA 21954 21953 21952; CX 21952 7325 7324; CX 1779 7324 21950; CX 1779 7259 21951; CX 21951 7324 7835;
  CX 7259 7324 21949; CA 21950 21949 21948; CX 21948 7324 7323; CX 1778 7323 21946; CX 1778 7258 21947; CX 21947 7323 7834; CX 7258 7323 21945; CA 21946 21945 21944;
  CX 21944 7323 7322; CX 1777 7322 21942; CX 1777 7257 21943; CX 21943 7322 7833; CX 7257 7322 21941; CA 21942 21941 21940; CX 21940 7322 7321; CX 1776 7321 21938;
  CX 1776 7256 21939; CX 21939 7321 7832; CX 7256 7321 21937; CA 21938 21937 21936; CX 21936 7321 7320; CX 1775 7320 21934; CX 1775 7255 21935; CX 21935 7320 7831;
  CX 7255 7320 21933; CA 21934 21933 21932; CX 21932 7320 7319; CX 1774 7319 21930; CX 1774 7254 21931; CX 21931 7319 7830; CX 7254 7319 21929; CA 21930 21929 21928;
  CX 21928 7319 7318; CX 1773 7318 21926; CX 1773 7253 21927; CX 21927 7318 7829; CX 7253 7318 21925; CA 21926 21925 21924; CX 21924 7318 7317; CX 1772 7317 21922;
  CX 1772 7252 21923; CX 21923 7317 7828; CX 7252 7317 21921; CA 21922 21921 21920; CX 21920 7317 7316; CX 1771 7316 21918; CX 1771 7251 21919; CX 21919 7316 7827;
  CX 7251 7316 21917; CA 21918 21917 21916; CX 21916 7316 7315; CX 1770 7315 21914; CX 1770 7250 21915; CX 21915 7315 7826; CX 7250 7315 21913; CA 21914 21913 21912;
  CX 21912 7315 7314; CX 1769 7314 21910; CX 1769 7249 21911; CX 21911 7314 7825; CX 7249 7314 21909; CA 21910 21909 21908; CX 21908 7314 7313; CX 1768 7313 21906;
  CX 1768 7248 21907; CX 21907 7313 7824; CX 7248 7313 21905; CA 21906 21905 21904; CX 21904 7313 7312; CX 1767 7312 21902; CX 1767 7247 21903; CX 21903 7312 7823;
  CX 7247 7312 21901; CA 21902 21901 21900; CX 21900 7312 7311; CX 1766 7311 21898; CX 1766 7246 21899; CX 21899 7311 7822; CX 7246 7311 21897; CA 21898 21897 21896;
  CX 21896 7311 7310; CX 1765 7310 21894; CX 1765 7245 21895; CX 21895 7310 7821; CX 7245 7310 21893; CA 21894 21893 21892; CX 21892 7310 7309; CX 1764 7309 21890;
  CX 1764 7244 21891; CX 21891 7309 7820; CX 7244 7309 21889; CA 21890 21889 21888; CX 21888 7309 7308; CX 1763 7308 21886; CX 1763 7243 21887; CX 21887 7308 7819;
  CX 7243 7308 21885; CA 21886 21885 21884; CX 21884 7308 7307; CX 1762 7307 21882; CX 1762 7242 21883; CX 21883 7307 7818; CX 7242 7307 21881; CA 21882 21881 21880;
  CX 21880 7307 7306; CX 1761 7306 21878; CX 1761 7241 21879; CX 21879 7306 7817; CX 7241 7306 21877; CA 21878 21877 21876; CX 21876 7306 7305; CX 1760 7305 21874;
  CX 1760 7240 21875; CX 21875 7305 7816; CX 7240 7305 21873; CA 21874 21873 21872; CX 21872 7305 7304; CX 1759 7304 21870; CX 1759 7239 21871; CX 21871 7304 7815;
  CX 7239 7304 21869; CA 21870 21869 21868; CX 21868 7304 7303; CX 1758 7303 21866; CX 1758 7238 21867; CX 21867 7303 7814; CX 7238 7303 21865; CA 21866 21865 21864;
  CX 21864 7303 7302; CX 1757 7302 21862; CX 1757 7237 21863; CX 21863 7302 7813; CX 7237 7302 21861; CA 21862 21861 21860; CX 21860 7302 7301; CX 1756 7301 21858;
  CX 1756 7236 21859; CX 21859 7301 7812; CX 7236 7301 21857; CA 21858 21857 21856; CX 21856 7301 7300; CX 1755 7300 21854; CX 1755 7235 21855; CX 21855 7300 7811;
  CX 7235 7300 21853; CA 21854 21853 21852; CX 21852 7300 7299; CX 1754 7299 21850; CX 1754 7234 21851; CX 21851 7299 7810; CX 7234 7299 21849; CA 21850 21849 21848;
  CX 21848 7299 7298; CX 1753 7298 21846; CX 1753 7233 21847; CX 21847 7298 7809; CX 7233 7298 21845; CA 21846 21845 21844; CX 21844 7298 7297; CX 1752 7297 21842;
  CX 1752 7232 21843; CX 21843 7297 7808; CX 7232 7297 21841; CA 21842 21841 21840; CX 21840 7297 7296; CX 1751 7296 21838; CX 1751 7231 21839; CX 21839 7296 7807;
  CX 7231 7296 21837; CA 21838 21837 21836; CX 21836 7296 7295; CX 1750 7295 21834; CX 1750 7230 21835; CX 21835 7295 7806; CX 7230 7295 21833; CA 21834 21833 21832].
(** Lines 13605-14004 of the file. *)
Definition mult2_64_34 : list cg := [
  CX 21832 7295 7294; CX 1749 7294 21830; CX 1749 7229 21831; CX 21831 7294 7805; CX 7229 7294 21829; CA 21830 21829 21828; CX 21828 7294 7293; CX 1748 7293 21826;
  CX 1748 7228 21827; CX 21827 7293 7804; CX 7228 7293 21825; CA 21826 21825 21824; CX 21824 7293 7292; CX 1747 7292 21822; CX 1747 7227 21823; CX 21823 7292 7803;
  CX 7227 7292 21821; CA 21822 21821 21820; CX 21820 7292 7291; CX 1746 7291 21818; CX 1746 7226 21819; CX 21819 7291 7802; CX 7226 7291 21817; CA 21818 21817 21816;
  CX 21816 7291 7290; CX 1745 7290 21814; CX 1745 7225 21815; CX 21815 7290 7801; CX 7225 7290 21813; CA 21814 21813 21812; CX 21812 7290 7289; CX 1744 7289 21810;
  CX 1744 7224 21811; CX 21811 7289 7800; CX 7224 7289 21809; CA 21810 21809 21808; CX 21808 7289 7288; CX 1743 7288 21806; CX 1743 7223 21807; CX 21807 7288 7799;
  CX 7223 7288 21805; CA 21806 21805 21804; CX 21804 7288 7287; CX 1742 7287 21802; CX 1742 7222 21803; CX 21803 7287 7798; CX 7222 7287 21801; CA 21802 21801 21800;
  CX 21800 7287 7286; CX 1741 7286 21798; CX 1741 7221 21799; CX 21799 7286 7797; CX 7221 7286 21797; CA 21798 21797 21796; CX 21796 7286 7285; CX 1740 7285 21794;
  CX 1740 7220 21795; CX 21795 7285 7796; CX 7220 7285 21793; CA 21794 21793 21792; CX 21792 7285 7284; CX 7219 7284 21789; CX 1739 7284 21790; CX 1738 7218 21787;
  CX 1739 7219 21791; CX 21791 7284 7795; CA 21790 21789 21788; CX 21788 7284 7283; CX 1738 7283 21786; CX 7218 7283 21785; CX 21787 7283 7794; CA 21786 21785 21784;
  CX 21784 7283 7282; CX 7217 7282 21781; CX 1737 7217 21783; CX 21783 7282 7793; CX 1737 7282 21782; CA 21782 21781 21780; CX 21780 7282 7281; CX 7216 7281 21777;
  CX 1736 7216 21779; CX 21779 7281 7792; CX 1736 7281 21778; CA 21778 21777 21776; CX 21776 7281 7280; CX 7215 7280 21773; CX 1735 7215 21775; CX 21775 7280 7791;
  CX 1735 7280 21774; CA 21774 21773 21772; CX 21772 7280 7279; CX 7214 7279 21769; CX 1734 7214 21771; CX 21771 7279 7790; CX 1734 7279 21770; CA 21770 21769 21768;
  CX 21768 7279 7278; CX 7213 7278 21765; CX 1733 7213 21767; CX 21767 7278 7789; CX 1733 7278 21766; CA 21766 21765 21764; CX 21764 7278 7277; CX 7212 7277 21761;
  CX 1732 7212 21763; CX 21763 7277 7788; CX 1732 7277 21762; CA 21762 21761 21760; CX 21760 7277 7276; CX 7211 7276 21757; CX 1731 7211 21759; CX 21759 7276 7787;
  CX 1731 7276 21758; CX 1729 7209 21751; CA 21758 21757 21756; CX 21756 7276 7275; CX 21755 7275 7786; CX 1728 7208 21747; CX 1730 7275 21754; CX 7210 7275 21753;
  CA 21754 21753 21752; CX 21752 7275 7274; CX 21751 7274 7785; CX 1727 6703 21743; CX 1729 7274 21750; CX 7209 7274 21749; CA 21750 21749 21748; CX 21748 7274 7273;
  CX 21747 7273 7784; CX 1728 7273 21746; CX 7208 7273 21745; CA 21746 21745 21744; CX 21744 7273 7272; CX 21743 7272 7783; CX 1727 7272 21742; CX 6703 7272 21741;
  CA 21742 21741 21740; CX 21740 7272 7271; CX 1847 7838 21715; CX 21715 7392 7902; CX 1846 7837 21711; CX 1845 7836 21707; CX 7838 7392 21713; CA 21714 21713 21712;
  CX 21712 7392 7391; CX 21711 7391 7901; CX 1844 7835 21703; CX 1846 7391 21710; CX 7837 7391 21709; CA 21710 21709 21708; CX 21708 7391 7390; CX 21707 7390 7900;
  CX 1843 7834 21699; CX 1845 7390 21706; CX 7836 7390 21705; CA 21706 21705 21704; CX 21704 7390 7389; CX 21703 7389 7899; CX 1842 7833 21695; CX 1844 7389 21702;
  CX 7835 7389 21701; CA 21702 21701 21700; CX 21700 7389 7388; CX 21699 7388 7898; CX 1841 7832 21691; CX 1843 7388 21698; CX 7834 7388 21697; CA 21698 21697 21696;
  CX 21696 7388 7387; CX 21695 7387 7897; CX 1840 7831 21687; CX 1842 7387 21694; CX 7833 7387 21693; CA 21694 21693 21692; CX 21692 7387 7386; CX 21691 7386 7896;
  CX 1839 7830 21683; CX 1841 7386 21690; CX 7832 7386 21689; CA 21690 21689 21688; CX 21688 7386 7385; CX 21687 7385 7895; CX 1838 7829 21679; CX 1840 7385 21686;
  CX 7831 7385 21685; CA 21686 21685 21684; CX 21684 7385 7384; CX 21683 7384 7894; CX 1837 7828 21675; CX 1839 7384 21682; CX 7830 7384 21681; CA 21682 21681 21680;
  CX 21680 7384 7383; CX 21679 7383 7893; CX 1836 7827 21671; CX 1838 7383 21678; CX 7829 7383 21677; CA 21678 21677 21676; CX 21676 7383 7382; CX 21675 7382 7892;
  CX 1835 7826 21667; CX 1837 7382 21674; CX 7828 7382 21673; CA 21674 21673 21672; CX 21672 7382 7381; CX 21671 7381 7891; CX 1834 7825 21663; CX 1836 7381 21670;
  CX 7827 7381 21669; CA 21670 21669 21668; CX 21668 7381 7380; CX 21667 7380 7890; CX 1833 7824 21659; CX 1835 7380 21666; CX 7826 7380 21665; CA 21666 21665 21664;
  CX 21664 7380 7379; CX 21663 7379 7889; CX 1832 7823 21655; CX 1834 7379 21662; CX 7825 7379 21661; CA 21662 21661 21660; CX 21660 7379 7378; CX 21659 7378 7888;
  CX 1831 7822 21651; CX 1833 7378 21658; CX 7824 7378 21657; CA 21658 21657 21656; CX 21656 7378 7377; CX 21655 7377 7887; CX 1830 7821 21647; CX 1832 7377 21654;
  CX 7823 7377 21653; CA 21654 21653 21652; CX 21652 7377 7376; CX 21651 7376 7886; CX 1829 7820 21643; CX 1831 7376 21650; CX 7822 7376 21649; CA 21650 21649 21648;
  CX 21648 7376 7375; CX 21647 7375 7885; CX 1828 7819 21639; CX 1830 7375 21646; CX 7821 7375 21645; CA 21646 21645 21644; CX 21644 7375 7374; CX 21643 7374 7884;
  CX 1827 7818 21635; CX 1829 7374 21642; CX 7820 7374 21641; CA 21642 21641 21640; CX 21640 7374 7373; CX 21639 7373 7883; CX 1826 7817 21631; CX 1828 7373 21638;
  CX 7819 7373 21637; CA 21638 21637 21636; CX 21636 7373 7372; CX 21635 7372 7882; CX 1825 7816 21627; CX 1827 7372 21634; CX 7818 7372 21633; CA 21634 21633 21632;
  CX 21632 7372 7371; CX 21631 7371 7881; CX 1824 7815 21623; CX 1826 7371 21630; CX 7817 7371 21629; CA 21630 21629 21628; CX 21628 7371 7370; CX 21627 7370 7880;
  CX 1823 7814 21619; CX 1825 7370 21626; CX 7816 7370 21625; CA 21626 21625 21624; CX 21624 7370 7369; CX 21623 7369 7879; CX 1822 7813 21615; CX 1824 7369 21622;
  CX 7815 7369 21621; CA 21622 21621 21620; CX 21620 7369 7368; CX 21619 7368 7878; CX 1821 7812 21611; CX 1823 7368 21618; CX 7814 7368 21617; CA 21618 21617 21616;
  CX 21616 7368 7367; CX 21615 7367 7877; CX 1820 7811 21607; CX 1822 7367 21614; CX 7813 7367 21613; CA 21614 21613 21612; CX 21612 7367 7366; CX 21611 7366 7876;
  CX 1819 7810 21603; CX 1821 7366 21610; CX 7812 7366 21609; CA 21610 21609 21608; CX 21608 7366 7365; CX 21607 7365 7875; CX 1818 7809 21599; CX 1820 7365 21606;
  CX 7811 7365 21605; CA 21606 21605 21604; CX 21604 7365 7364; CX 21603 7364 7874; CX 1817 7808 21595; CX 1819 7364 21602; CX 7810 7364 21601; CA 21602 21601 21600;
  CX 21600 7364 7363; CX 21599 7363 7873; CX 1816 7807 21591; CX 1818 7363 21598; CX 7809 7363 21597; CA 21598 21597 21596; CX 21596 7363 7362; CX 21595 7362 7872;
  CX 1815 7806 21587; CX 1817 7362 21594; CX 7808 7362 21593; CA 21594 21593 21592; CX 21592 7362 7361; CX 21591 7361 7871; CX 1814 7805 21583; CX 1816 7361 21590;
  CX 7807 7361 21589; CA 21590 21589 21588; CX 21588 7361 7360; CX 21587 7360 7870; CX 1813 7804 21579; CX 1815 7360 21586; CX 7806 7360 21585; CA 21586 21585 21584;
  CX 21584 7360 7359; CX 21583 7359 7869; CX 1812 7803 21575; CX 1814 7359 21582; CX 7805 7359 21581; CA 21582 21581 21580; CX 21580 7359 7358; CX 21579 7358 7868;
  CX 1811 7802 21571; CX 1813 7358 21578; CX 7804 7358 21577; CA 21578 21577 21576; CX 21576 7358 7357; CX 21575 7357 7867; CX 1810 7801 21567; CX 1812 7357 21574;
  CX 7803 7357 21573; CA 21574 21573 21572; CX 21572 7357 7356; CX 21571 7356 7866; CX 1809 7800 21563; CX 1811 7356 21570; CX 7802 7356 21569; CA 21570 21569 21568;
  CX 21568 7356 7355; CX 21567 7355 7865; CX 1808 7799 21559; CX 1810 7355 21566; CX 7801 7355 21565; CA 21566 21565 21564; CX 21564 7355 7354; CX 21563 7354 7864;
  CX 1807 7798 21555; CX 1809 7354 21562; CX 7800 7354 21561; CA 21562 21561 21560; CX 21560 7354 7353; CX 21559 7353 7863; CX 1806 7797 21551; CX 1808 7353 21558;
  CX 7799 7353 21557; CA 21558 21557 21556; CX 21556 7353 7352; CX 21555 7352 7862; CX 1805 7796 21547; CX 1807 7352 21554; CX 7798 7352 21553; CA 21554 21553 21552;
  CX 21552 7352 7351; CX 21551 7351 7861; CX 1804 7795 21543; CX 1806 7351 21550; CX 7797 7351 21549; CA 21550 21549 21548; CX 21548 7351 7350; CX 21547 7350 7860;
  CX 1803 7794 21539; CX 1805 7350 21546; CX 7796 7350 21545; CA 21546 21545 21544; CX 21544 7350 7349; CX 21543 7349 7859; CX 1802 7793 21535; CX 1804 7349 21542].
(** Lines 14005-14404 of the file. *)
Definition mult2_64_35 : list cg := [
  CX 7795 7349 21541; CA 21542 21541 21540; CX 21540 7349 7348; CX 21539 7348 7858; CX 1803 7348 21538; CX 7794 7348 21537; CA 21538 21537 21536; CX 21536 7348 7347;
  CX 21535 7347 7857; CX 1802 7347 21534; CX 7793 7347 21533; CA 21534 21533 21532; CX 21532 7347 7346; CX 1801 7792 21531; CX 21531 7346 7856; CX 7792 7346 21529;
  CX 1801 7346 21530; CA 21530 21529 21528; CX 21528 7346 7345; CX 1800 7345 21526; CX 1800 7791 21527; CX 21527 7345 7855; CX 1799 7790 21523; CX 7791 7345 21525;
  CA 21526 21525 21524; CX 21524 7345 7344; CX 21523 7344 7854; CX 1799 7344 21522; CX 1798 7789 21519; CX 7790 7344 21521; CA 21522 21521 21520; CX 21520 7344 7343;
  CX 21519 7343 7853; CX 1798 7343 21518; CX 1797 7788 21515; CX 7789 7343 21517; CA 21518 21517 21516; CX 21516 7343 7342; CX 21515 7342 7852; CX 1797 7342 21514;
  CX 1796 7787 21511; CX 7788 7342 21513; CA 21514 21513 21512; CX 21512 7342 7341; CX 21511 7341 7851; CX 1796 7341 21510; CX 1795 7786 21507; CX 7787 7341 21509;
  CA 21510 21509 21508; CX 21508 7341 7340; CX 21507 7340 7850; CX 1795 7340 21506; CX 1794 7785 21503; CX 7786 7340 21505; CA 21506 21505 21504; CX 21504 7340 7339;
  CX 7785 7339 21501; CX 21503 7339 7849; CX 1794 7339 21502; CA 21502 21501 21500; CX 21500 7339 7338; CX 1793 7784 21499; CX 21499 7338 7848; CX 1793 7338 21498;
  CX 7784 7338 21497; CA 21498 21497 21496; CX 21496 7338 7337; CX 1792 7783 21495; CX 21495 7337 7847; CX 1792 7337 21494; CX 7783 7337 21493; CA 21494 21493 21492;
  CX 21492 7337 7336; CX 1791 7271 21491; CX 21491 7336 7846; CX 1791 7336 21490; CX 7271 7336 21489; CA 21490 21489 21488; CX 21488 7336 7335; CX 1912 7902 21467;
  CX 21467 7457 7966; CX 7902 7457 21465; CA 21466 21465 21464; CX 21464 7457 7456; CX 1911 7901 21463; CX 21463 7456 7965; CX 1911 7456 21462; CX 7901 7456 21461;
  CA 21462 21461 21460; CX 21460 7456 7455; CX 1910 7900 21459; CX 21459 7455 7964; CX 1910 7455 21458; CX 7900 7455 21457; CA 21458 21457 21456; CX 21456 7455 7454;
  CX 1909 7899 21455; CX 21455 7454 7963; CX 1909 7454 21454; CX 7899 7454 21453; CA 21454 21453 21452; CX 21452 7454 7453; CX 1908 7898 21451; CX 21451 7453 7962;
  CX 1908 7453 21450; CX 7898 7453 21449; CA 21450 21449 21448; CX 21448 7453 7452; CX 1907 7897 21447; CX 21447 7452 7961; CX 1907 7452 21446; CX 7897 7452 21445;
  CA 21446 21445 21444; CX 21444 7452 7451; CX 1906 7896 21443; CX 21443 7451 7960; CX 1906 7451 21442; CX 7896 7451 21441; CA 21442 21441 21440; CX 21440 7451 7450;
  CX 1905 7895 21439; CX 21439 7450 7959; CX 1905 7450 21438; CX 7895 7450 21437; CA 21438 21437 21436; CX 21436 7450 7449; CX 1904 7894 21435; CX 21435 7449 7958;
  CX 1904 7449 21434; CX 7894 7449 21433; CA 21434 21433 21432; CX 21432 7449 7448; CX 1903 7893 21431; CX 21431 7448 7957; CX 1903 7448 21430; CX 7893 7448 21429;
  CA 21430 21429 21428; CX 21428 7448 7447; CX 1902 7892 21427; CX 21427 7447 7956; CX 1902 7447 21426; CX 7892 7447 21425; CA 21426 21425 21424; CX 21424 7447 7446;
  CX 1901 7891 21423; CX 21423 7446 7955; CX 1901 7446 21422; CX 7891 7446 21421; CA 21422 21421 21420; CX 21420 7446 7445; CX 1900 7890 21419; CX 21419 7445 7954;
  CX 1900 7445 21418; CX 7890 7445 21417; CA 21418 21417 21416; CX 21416 7445 7444; CX 1899 7889 21415; CX 21415 7444 7953; CX 1899 7444 21414; CX 7889 7444 21413;
  CA 21414 21413 21412; CX 21412 7444 7443; CX 1898 7888 21411; CX 21411 7443 7952; CX 1898 7443 21410; CX 7888 7443 21409; CA 21410 21409 21408; CX 21408 7443 7442;
  CX 1897 7887 21407; CX 21407 7442 7951; CX 1897 7442 21406; CX 7887 7442 21405; CA 21406 21405 21404; CX 21404 7442 7441; CX 1896 7886 21403; CX 21403 7441 7950;
  CX 1896 7441 21402; CX 7886 7441 21401; CA 21402 21401 21400; CX 21400 7441 7440; CX 1895 7885 21399; CX 21399 7440 7949; CX 1895 7440 21398; CX 7885 7440 21397;
  CA 21398 21397 21396; CX 21396 7440 7439; CX 1894 7884 21395; CX 21395 7439 7948; CX 1894 7439 21394; CX 7884 7439 21393; CA 21394 21393 21392; CX 21392 7439 7438;
  CX 1893 7883 21391; CX 21391 7438 7947; CX 1893 7438 21390; CX 7883 7438 21389; CA 21390 21389 21388; CX 21388 7438 7437; CX 1892 7882 21387; CX 21387 7437 7946;
  CX 1892 7437 21386; CX 7882 7437 21385; CA 21386 21385 21384; CX 21384 7437 7436; CX 1891 7881 21383; CX 21383 7436 7945; CX 1891 7436 21382; CX 7881 7436 21381;
  CA 21382 21381 21380; CX 21380 7436 7435; CX 1890 7880 21379; CX 21379 7435 7944; CX 1890 7435 21378; CX 7880 7435 21377; CA 21378 21377 21376; CX 21376 7435 7434;
  CX 1889 7879 21375; CX 21375 7434 7943; CX 1889 7434 21374; CX 7879 7434 21373; CA 21374 21373 21372; CX 21372 7434 7433; CX 1888 7878 21371; CX 21371 7433 7942;
  CX 1888 7433 21370; CX 7878 7433 21369; CA 21370 21369 21368; CX 21368 7433 7432; CX 1887 7877 21367; CX 21367 7432 7941; CX 1887 7432 21366; CX 7877 7432 21365;
  CA 21366 21365 21364; CX 21364 7432 7431; CX 1886 7876 21363; CX 21363 7431 7940; CX 1886 7431 21362; CX 7876 7431 21361; CA 21362 21361 21360; CX 21360 7431 7430;
  CX 1885 7875 21359; CX 21359 7430 7939; CX 1885 7430 21358; CX 7875 7430 21357; CA 21358 21357 21356; CX 21356 7430 7429; CX 1884 7874 21355; CX 21355 7429 7938;
  CX 1884 7429 21354; CX 7874 7429 21353; CA 21354 21353 21352; CX 21352 7429 7428; CX 1883 7873 21351; CX 21351 7428 7937; CX 1883 7428 21350; CX 7873 7428 21349;
  CA 21350 21349 21348; CX 21348 7428 7427; CX 1882 7872 21347; CX 21347 7427 7936; CX 1882 7427 21346; CX 7872 7427 21345; CA 21346 21345 21344; CX 21344 7427 7426;
  CX 1881 7871 21343; CX 21343 7426 7935; CX 1881 7426 21342; CX 7871 7426 21341; CA 21342 21341 21340; CX 21340 7426 7425; CX 1880 7870 21339; CX 21339 7425 7934;
  CX 1880 7425 21338; CX 7870 7425 21337; CA 21338 21337 21336; CX 21336 7425 7424; CX 1879 7869 21335; CX 21335 7424 7933; CX 1879 7424 21334; CX 7869 7424 21333;
  CA 21334 21333 21332; CX 21332 7424 7423; CX 1878 7868 21331; CX 21331 7423 7932; CX 1878 7423 21330; CX 7868 7423 21329; CA 21330 21329 21328; CX 21328 7423 7422;
  CX 1877 7867 21327; CX 21327 7422 7931; CX 1877 7422 21326; CX 7867 7422 21325; CA 21326 21325 21324; CX 21324 7422 7421; CX 1876 7866 21323; CX 21323 7421 7930;
  CX 1876 7421 21322; CX 7866 7421 21321; CA 21322 21321 21320; CX 21320 7421 7420; CX 1875 7865 21319; CX 21319 7420 7929; CX 1875 7420 21318; CX 7865 7420 21317;
  CA 21318 21317 21316; CX 21316 7420 7419; CX 1874 7864 21315; CX 21315 7419 7928; CX 1874 7419 21314; CX 7864 7419 21313; CA 21314 21313 21312; CX 21312 7419 7418;
  CX 1873 7863 21311; CX 21311 7418 7927; CX 1873 7418 21310; CX 7863 7418 21309; CA 21310 21309 21308; CX 21308 7418 7417; CX 1872 7862 21307; CX 21307 7417 7926;
  CX 1872 7417 21306; CX 7862 7417 21305; CA 21306 21305 21304; CX 21304 7417 7416; CX 1871 7861 21303; CX 21303 7416 7925; CX 1871 7416 21302; CX 7861 7416 21301;
  CA 21302 21301 21300; CX 21300 7416 7415; CX 1870 7860 21299; CX 21299 7415 7924; CX 1870 7415 21298; CX 7860 7415 21297; CA 21298 21297 21296; CX 21296 7415 7414;
  CX 1869 7859 21295; CX 21295 7414 7923; CX 1869 7414 21294; CX 7859 7414 21293; CA 21294 21293 21292; CX 21292 7414 7413; CX 1868 7858 21291; CX 21291 7413 7922;
  CX 1868 7413 21290; CX 7858 7413 21289; CA 21290 21289 21288; CX 21288 7413 7412; CX 1867 7857 21287; CX 21287 7412 7921; CX 1867 7412 21286; CX 7857 7412 21285;
  CA 21286 21285 21284; CX 21284 7412 7411; CX 1866 7856 21283; CX 21283 7411 7920; CX 1866 7411 21282; CX 7856 7411 21281; CA 21282 21281 21280; CX 21280 7411 7410;
  CX 1865 7410 21278; CX 1865 7855 21279; CX 21279 7410 7919; CX 7855 7410 21277; CA 21278 21277 21276; CX 21276 7410 7409; CX 1864 7409 21274; CX 1864 7854 21275;
  CX 21275 7409 7918; CX 7854 7409 21273; CA 21274 21273 21272; CX 21272 7409 7408; CX 1863 7408 21270; CX 1863 7853 21271; CX 21271 7408 7917; CX 7853 7408 21269;
  CA 21270 21269 21268; CX 21268 7408 7407; CX 1862 7407 21266; CX 1862 7852 21267; CX 21267 7407 7916; CX 7852 7407 21265; CA 21266 21265 21264; CX 21264 7407 7406;
  CX 1861 7406 21262; CX 1861 7851 21263; CX 21263 7406 7915; CX 7851 7406 21261; CA 21262 21261 21260; CX 21260 7406 7405; CX 1860 7405 21258; CX 1860 7850 21259;
  CX 21259 7405 7914; CX 7850 7405 21257; CA 21258 21257 21256; CX 21256 7405 7404; CX 1859 7404 21254; CX 1859 7849 21255; CX 21255 7404 7913; CX 7849 7404 21253].
(** Lines 14405-14804 of the file. *)
Definition mult2_64_36 : list cg := [
  CA 21254 21253 21252; CX 21252 7404 7403; CX 7848 7403 21249; CX 1858 7403 21250; CX 1858 7848 21251; CX 21251 7403 7912; CA 21250 21249 21248; CX 21248 7403 7402;
  CX 1857 7402 21246; CX 1857 7847 21247; CX 21247 7402 7911; CX 7847 7402 21245; CA 21246 21245 21244; CX 21244 7402 7401; CX 1856 7401 21242; CX 1856 7846 21243;
  CX 21243 7401 7910; CX 1921 7910 20995; CX 7846 7401 21241; CA 21242 21241 21240; CX 21240 7401 7400; CX 1855 7400 21238; CX 1855 7335 21239; CX 21239 7400 7909;
  CX 7335 7400 21237; CA 21238 21237 21236; CX 21236 7400 7399; CX 1977 7966 21219; CX 21219 7522 8030; CX 7966 7522 21217; CA 21218 21217 21216; CX 21216 7522 7521;
  CX 1976 7521 21214; CX 1976 7965 21215; CX 21215 7521 8029; CX 7965 7521 21213; CA 21214 21213 21212; CX 21212 7521 7520; CX 1975 7520 21210; CX 1975 7964 21211;
  CX 21211 7520 8028; CX 7964 7520 21209; CA 21210 21209 21208; CX 21208 7520 7519; CX 1974 7519 21206; CX 1974 7963 21207; CX 21207 7519 8027; CX 7963 7519 21205;
  CA 21206 21205 21204; CX 21204 7519 7518; CX 1973 7518 21202; CX 1973 7962 21203; CX 21203 7518 8026; CX 7962 7518 21201; CA 21202 21201 21200; CX 21200 7518 7517;
  CX 1972 7517 21198; CX 1972 7961 21199; CX 21199 7517 8025; CX 7961 7517 21197; CA 21198 21197 21196; CX 21196 7517 7516; CX 1971 7516 21194; CX 1971 7960 21195;
  CX 21195 7516 8024; CX 7960 7516 21193; CA 21194 21193 21192; CX 21192 7516 7515; CX 1970 7515 21190; CX 1970 7959 21191; CX 21191 7515 8023; CX 7959 7515 21189;
  CA 21190 21189 21188; CX 21188 7515 7514; CX 1969 7514 21186; CX 1969 7958 21187; CX 21187 7514 8022; CX 7958 7514 21185; CA 21186 21185 21184; CX 21184 7514 7513;
  CX 1968 7513 21182; CX 1968 7957 21183; CX 21183 7513 8021; CX 7957 7513 21181; CA 21182 21181 21180; CX 21180 7513 7512; CX 1967 7512 21178; CX 1967 7956 21179;
  CX 21179 7512 8020; CX 7956 7512 21177; CA 21178 21177 21176; CX 21176 7512 7511; CX 1966 7511 21174; CX 1966 7955 21175; CX 21175 7511 8019; CX 7955 7511 21173;
  CA 21174 21173 21172; CX 21172 7511 7510; CX 1965 7510 21170; CX 1965 7954 21171; CX 21171 7510 8018; CX 7954 7510 21169; CA 21170 21169 21168; CX 21168 7510 7509;
  CX 1964 7509 21166; CX 1964 7953 21167; CX 21167 7509 8017; CX 7953 7509 21165; CA 21166 21165 21164; CX 21164 7509 7508; CX 1963 7508 21162; CX 1963 7952 21163;
  CX 21163 7508 8016; CX 7952 7508 21161; CA 21162 21161 21160; CX 21160 7508 7507; CX 1962 7507 21158; CX 1962 7951 21159; CX 21159 7507 8015; CX 7951 7507 21157;
  CA 21158 21157 21156; CX 21156 7507 7506; CX 1961 7506 21154; CX 1961 7950 21155; CX 21155 7506 8014; CX 7950 7506 21153; CA 21154 21153 21152; CX 21152 7506 7505;
  CX 1960 7505 21150; CX 1960 7949 21151; CX 21151 7505 8013; CX 7949 7505 21149; CA 21150 21149 21148; CX 21148 7505 7504; CX 1959 7504 21146; CX 1959 7948 21147;
  CX 21147 7504 8012; CX 7948 7504 21145; CA 21146 21145 21144; CX 21144 7504 7503; CX 1958 7503 21142; CX 1958 7947 21143; CX 21143 7503 8011; CX 7947 7503 21141;
  CA 21142 21141 21140; CX 21140 7503 7502; CX 1957 7502 21138; CX 1957 7946 21139; CX 21139 7502 8010; CX 7946 7502 21137; CA 21138 21137 21136; CX 21136 7502 7501;
  CX 1956 7501 21134; CX 1956 7945 21135; CX 21135 7501 8009; CX 7945 7501 21133; CA 21134 21133 21132; CX 21132 7501 7500; CX 1955 7500 21130; CX 1955 7944 21131;
  CX 21131 7500 8008; CX 7944 7500 21129; CA 21130 21129 21128; CX 21128 7500 7499; CX 1954 7499 21126; CX 1954 7943 21127; CX 21127 7499 8007; CX 7943 7499 21125;
  CA 21126 21125 21124; CX 21124 7499 7498; CX 1953 7498 21122; CX 1953 7942 21123; CX 21123 7498 8006; CX 7942 7498 21121; CA 21122 21121 21120; CX 21120 7498 7497;
  CX 1952 7497 21118; CX 1952 7941 21119; CX 21119 7497 8005; CX 7941 7497 21117; CA 21118 21117 21116; CX 21116 7497 7496; CX 1951 7496 21114; CX 1951 7940 21115;
  CX 21115 7496 8004; CX 7940 7496 21113; CA 21114 21113 21112; CX 21112 7496 7495; CX 1950 7495 21110; CX 1950 7939 21111; CX 21111 7495 8003; CX 7939 7495 21109;
  CA 21110 21109 21108; CX 21108 7495 7494; CX 1949 7494 21106; CX 1949 7938 21107; CX 21107 7494 8002; CX 7938 7494 21105; CA 21106 21105 21104; CX 21104 7494 7493;
  CX 1948 7493 21102; CX 1948 7937 21103; CX 21103 7493 8001; CX 7937 7493 21101; CA 21102 21101 21100; CX 21100 7493 7492; CX 1947 7492 21098; CX 1947 7936 21099;
  CX 21099 7492 8000; CX 7936 7492 21097; CA 21098 21097 21096; CX 21096 7492 7491; CX 1946 7491 21094; CX 1946 7935 21095; CX 21095 7491 7999; CX 7935 7491 21093;
  CA 21094 21093 21092; CX 21092 7491 7490; CX 1945 7490 21090; CX 1945 7934 21091; CX 21091 7490 7998; CX 7934 7490 21089; CA 21090 21089 21088; CX 21088 7490 7489;
  CX 1944 7489 21086; CX 1944 7933 21087; CX 21087 7489 7997; CX 7933 7489 21085; CA 21086 21085 21084; CX 21084 7489 7488; CX 1943 7488 21082; CX 1943 7932 21083;
  CX 21083 7488 7996; CX 7932 7488 21081; CA 21082 21081 21080; CX 21080 7488 7487; CX 1942 7487 21078; CX 1942 7931 21079; CX 21079 7487 7995; CX 7931 7487 21077;
  CA 21078 21077 21076; CX 21076 7487 7486; CX 1941 7486 21074; CX 1941 7930 21075; CX 21075 7486 7994; CX 7930 7486 21073; CA 21074 21073 21072; CX 21072 7486 7485;
  CX 1940 7485 21070; CX 1940 7929 21071; CX 21071 7485 7993; CX 7929 7485 21069; CA 21070 21069 21068; CX 21068 7485 7484; CX 1939 7484 21066; CX 1939 7928 21067;
  CX 21067 7484 7992; CX 7928 7484 21065; CA 21066 21065 21064; CX 21064 7484 7483; CX 1938 7483 21062; CX 1938 7927 21063; CX 21063 7483 7991; CX 7927 7483 21061;
  CA 21062 21061 21060; CX 21060 7483 7482; CX 1937 7482 21058; CX 1937 7926 21059; CX 21059 7482 7990; CX 7926 7482 21057; CA 21058 21057 21056; CX 21056 7482 7481;
  CX 1936 7481 21054; CX 1936 7925 21055; CX 21055 7481 7989; CX 7925 7481 21053; CA 21054 21053 21052; CX 21052 7481 7480; CX 1935 7480 21050; CX 1935 7924 21051;
  CX 21051 7480 7988; CX 7924 7480 21049; CA 21050 21049 21048; CX 21048 7480 7479; CX 1934 7479 21046; CX 1934 7923 21047; CX 21047 7479 7987; CX 7923 7479 21045;
  CA 21046 21045 21044; CX 21044 7479 7478; CX 1933 7478 21042; CX 1933 7922 21043; CX 21043 7478 7986; CX 7922 7478 21041; CA 21042 21041 21040; CX 21040 7478 7477;
  CX 1932 7477 21038; CX 1932 7921 21039; CX 21039 7477 7985; CX 7921 7477 21037; CA 21038 21037 21036; CX 21036 7477 7476; CX 1931 7476 21034; CX 1931 7920 21035;
  CX 21035 7476 7984; CX 7920 7476 21033; CA 21034 21033 21032; CX 21032 7476 7475; CX 1930 7475 21030; CX 1930 7919 21031; CX 21031 7475 7983; CX 7919 7475 21029;
  CA 21030 21029 21028; CX 21028 7475 7474; CX 7918 7474 21025; CX 1929 7474 21026; CX 1928 7917 21023; CX 1929 7918 21027; CX 21027 7474 7982; CA 21026 21025 21024;
  CX 21024 7474 7473; CX 1928 7473 21022; CX 7917 7473 21021; CX 21023 7473 7981; CA 21022 21021 21020; CX 21020 7473 7472; CX 7916 7472 21017; CX 1927 7916 21019;
  CX 21019 7472 7980; CX 1927 7472 21018; CA 21018 21017 21016; CX 21016 7472 7471; CX 7915 7471 21013; CX 1926 7915 21015; CX 21015 7471 7979; CX 1926 7471 21014;
  CA 21014 21013 21012; CX 21012 7471 7470; CX 7914 7470 21009; CX 1925 7914 21011; CX 21011 7470 7978; CX 1925 7470 21010; CA 21010 21009 21008; CX 21008 7470 7469;
  CX 7913 7469 21005; CX 1924 7913 21007; CX 21007 7469 7977; CX 1924 7469 21006; CA 21006 21005 21004; CX 21004 7469 7468; CX 7912 7468 21001; CX 1923 7912 21003;
  CX 21003 7468 7976; CX 1923 7468 21002; CA 21002 21001 21000; CX 21000 7468 7467; CX 7911 7467 20997; CX 1922 7911 20999; CX 20999 7467 7975; CX 1922 7467 20998;
  CX 1920 7909 20991; CA 20998 20997 20996; CX 20996 7467 7466; CX 20995 7466 7974; CX 1919 7399 20987; CX 1921 7466 20994; CX 7910 7466 20993; CA 20994 20993 20992;
  CX 20992 7466 7465; CX 20991 7465 7973; CX 1920 7465 20990; CX 7909 7465 20989; CA 20990 20989 20988; CX 20988 7465 7464; CX 20987 7464 7972; CX 1919 7464 20986;
  CX 7399 7464 20985; CA 20986 20985 20984; CX 20984 7464 7463; CX 2042 8030 20971; CX 20971 7587 8094; CX 2041 8029 20967; CX 2040 8028 20963; CX 8030 7587 20969;
  CA 20970 20969 20968; CX 20968 7587 7586; CX 20967 7586 8093; CX 2039 8027 20959; CX 2041 7586 20966; CX 8029 7586 20965; CA 20966 20965 20964; CX 20964 7586 7585;
  CX 20963 7585 8092; CX 2038 8026 20955; CX 2040 7585 20962; CX 8028 7585 20961; CA 20962 20961 20960; CX 20960 7585 7584; CX 20959 7584 8091; CX 2037 8025 20951].
(** Lines 14805-15204 of the file. *)
Definition mult2_64_37 : list cg := [
  CX 2039 7584 20958; CX 8027 7584 20957; CA 20958 20957 20956; CX 20956 7584 7583; CX 20955 7583 8090; CX 2036 8024 20947; CX 2038 7583 20954; CX 8026 7583 20953;
  CA 20954 20953 20952; CX 20952 7583 7582; CX 20951 7582 8089; CX 2035 8023 20943; CX 2037 7582 20950; CX 8025 7582 20949; CA 20950 20949 20948; CX 20948 7582 7581;
  CX 20947 7581 8088; CX 2034 8022 20939; CX 2036 7581 20946; CX 8024 7581 20945; CA 20946 20945 20944; CX 20944 7581 7580; CX 20943 7580 8087; CX 2033 8021 20935;
  CX 2035 7580 20942; CX 8023 7580 20941; CA 20942 20941 20940; CX 20940 7580 7579; CX 20939 7579 8086; CX 2032 8020 20931; CX 2034 7579 20938; CX 8022 7579 20937;
  CA 20938 20937 20936; CX 20936 7579 7578; CX 20935 7578 8085; CX 2031 8019 20927; CX 2033 7578 20934; CX 8021 7578 20933; CA 20934 20933 20932; CX 20932 7578 7577;
  CX 20931 7577 8084; CX 2030 8018 20923; CX 2032 7577 20930; CX 8020 7577 20929; CA 20930 20929 20928; CX 20928 7577 7576; CX 20927 7576 8083; CX 2029 8017 20919;
  CX 2031 7576 20926; CX 8019 7576 20925; CA 20926 20925 20924; CX 20924 7576 7575; CX 20923 7575 8082; CX 2028 8016 20915; CX 2030 7575 20922; CX 8018 7575 20921;
  CA 20922 20921 20920; CX 20920 7575 7574; CX 20919 7574 8081; CX 2027 8015 20911; CX 2029 7574 20918; CX 8017 7574 20917; CA 20918 20917 20916; CX 20916 7574 7573;
  CX 20915 7573 8080; CX 2026 8014 20907; CX 2028 7573 20914; CX 8016 7573 20913; CA 20914 20913 20912; CX 20912 7573 7572; CX 20911 7572 8079; CX 2025 8013 20903;
  CX 2027 7572 20910; CX 8015 7572 20909; CA 20910 20909 20908; CX 20908 7572 7571; CX 20907 7571 8078; CX 2024 8012 20899; CX 2026 7571 20906; CX 8014 7571 20905;
  CA 20906 20905 20904; CX 20904 7571 7570; CX 20903 7570 8077; CX 2023 8011 20895; CX 2025 7570 20902; CX 8013 7570 20901; CA 20902 20901 20900; CX 20900 7570 7569;
  CX 20899 7569 8076; CX 2022 8010 20891; CX 2024 7569 20898; CX 8012 7569 20897; CA 20898 20897 20896; CX 20896 7569 7568; CX 20895 7568 8075; CX 2021 8009 20887;
  CX 2023 7568 20894; CX 8011 7568 20893; CA 20894 20893 20892; CX 20892 7568 7567; CX 20891 7567 8074; CX 2020 8008 20883; CX 2022 7567 20890; CX 8010 7567 20889;
  CA 20890 20889 20888; CX 20888 7567 7566; CX 20887 7566 8073; CX 2019 8007 20879; CX 2021 7566 20886; CX 8009 7566 20885; CA 20886 20885 20884; CX 20884 7566 7565;
  CX 20883 7565 8072; CX 2018 8006 20875; CX 2020 7565 20882; CX 8008 7565 20881; CA 20882 20881 20880; CX 20880 7565 7564; CX 20879 7564 8071; CX 2017 8005 20871;
  CX 2019 7564 20878; CX 8007 7564 20877; CA 20878 20877 20876; CX 20876 7564 7563; CX 20875 7563 8070; CX 2016 8004 20867; CX 2018 7563 20874; CX 8006 7563 20873;
  CA 20874 20873 20872; CX 20872 7563 7562; CX 20871 7562 8069; CX 2015 8003 20863; CX 2017 7562 20870; CX 8005 7562 20869; CA 20870 20869 20868; CX 20868 7562 7561;
  CX 20867 7561 8068; CX 2014 8002 20859; CX 2016 7561 20866; CX 8004 7561 20865; CA 20866 20865 20864; CX 20864 7561 7560; CX 20863 7560 8067; CX 2013 8001 20855;
  CX 2015 7560 20862; CX 8003 7560 20861; CA 20862 20861 20860; CX 20860 7560 7559; CX 20859 7559 8066; CX 2012 8000 20851; CX 2014 7559 20858; CX 8002 7559 20857;
  CA 20858 20857 20856; CX 20856 7559 7558; CX 20855 7558 8065; CX 2011 7999 20847; CX 2013 7558 20854; CX 8001 7558 20853; CA 20854 20853 20852; CX 20852 7558 7557;
  CX 20851 7557 8064; CX 2010 7998 20843; CX 2012 7557 20850; CX 8000 7557 20849; CA 20850 20849 20848; CX 20848 7557 7556; CX 20847 7556 8063; CX 2009 7997 20839;
  CX 2011 7556 20846; CX 7999 7556 20845; CA 20846 20845 20844; CX 20844 7556 7555; CX 20843 7555 8062; CX 2008 7996 20835; CX 2010 7555 20842; CX 7998 7555 20841;
  CA 20842 20841 20840; CX 20840 7555 7554; CX 20839 7554 8061; CX 2007 7995 20831; CX 2009 7554 20838; CX 7997 7554 20837; CA 20838 20837 20836; CX 20836 7554 7553;
  CX 20835 7553 8060; CX 2006 7994 20827; CX 2008 7553 20834; CX 7996 7553 20833; CA 20834 20833 20832; CX 20832 7553 7552; CX 20831 7552 8059; CX 2005 7993 20823;
  CX 2007 7552 20830; CX 7995 7552 20829; CA 20830 20829 20828; CX 20828 7552 7551; CX 20827 7551 8058; CX 2004 7992 20819; CX 2006 7551 20826; CX 7994 7551 20825;
  CA 20826 20825 20824; CX 20824 7551 7550; CX 20823 7550 8057; CX 2003 7991 20815; CX 2005 7550 20822; CX 7993 7550 20821; CA 20822 20821 20820; CX 20820 7550 7549;
  CX 20819 7549 8056; CX 2002 7990 20811; CX 2004 7549 20818; CX 7992 7549 20817; CA 20818 20817 20816; CX 20816 7549 7548; CX 20815 7548 8055; CX 2001 7989 20807;
  CX 2003 7548 20814; CX 7991 7548 20813; CA 20814 20813 20812; CX 20812 7548 7547; CX 20811 7547 8054; CX 2000 7988 20803; CX 2002 7547 20810; CX 7990 7547 20809;
  CA 20810 20809 20808; CX 20808 7547 7546; CX 20807 7546 8053; CX 1999 7987 20799; CX 2001 7546 20806; CX 7989 7546 20805; CA 20806 20805 20804; CX 20804 7546 7545;
  CX 20803 7545 8052; CX 1998 7986 20795; CX 2000 7545 20802; CX 7988 7545 20801; CA 20802 20801 20800; CX 20800 7545 7544; CX 20799 7544 8051; CX 1997 7985 20791;
  CX 1999 7544 20798; CX 7987 7544 20797; CA 20798 20797 20796; CX 20796 7544 7543; CX 20795 7543 8050; CX 1996 7984 20787; CX 1998 7543 20794; CX 7986 7543 20793;
  CA 20794 20793 20792; CX 20792 7543 7542; CX 20791 7542 8049; CX 1995 7983 20783; CX 1997 7542 20790; CX 7985 7542 20789; CA 20790 20789 20788; CX 20788 7542 7541;
  CX 20787 7541 8048; CX 1994 7982 20779; CX 1996 7541 20786; CX 7984 7541 20785; CA 20786 20785 20784; CX 20784 7541 7540; CX 20783 7540 8047; CX 1993 7981 20775;
  CX 1995 7540 20782; CX 7983 7540 20781; CA 20782 20781 20780; CX 20780 7540 7539; CX 20779 7539 8046; CX 1992 7980 20771; CX 1994 7539 20778; CX 7982 7539 20777;
  CA 20778 20777 20776; CX 20776 7539 7538; CX 20775 7538 8045; CX 1993 7538 20774; CX 7981 7538 20773; CA 20774 20773 20772; CX 20772 7538 7537; CX 20771 7537 8044;
  CX 1992 7537 20770; CX 7980 7537 20769; CA 20770 20769 20768; CX 20768 7537 7536; CX 1991 7979 20767; CX 20767 7536 8043; CX 7979 7536 20765; CX 1991 7536 20766;
  CA 20766 20765 20764; CX 20764 7536 7535; CX 1990 7535 20762; CX 1990 7978 20763; CX 20763 7535 8042; CX 1989 7977 20759; CX 7978 7535 20761; CA 20762 20761 20760;
  CX 20760 7535 7534; CX 20759 7534 8041; CX 1989 7534 20758; CX 1988 7976 20755; CX 7977 7534 20757; CA 20758 20757 20756; CX 20756 7534 7533; CX 20755 7533 8040;
  CX 1988 7533 20754; CX 1987 7975 20751; CX 7976 7533 20753; CA 20754 20753 20752; CX 20752 7533 7532; CX 20751 7532 8039; CX 1987 7532 20750; CX 1986 7974 20747;
  CX 7975 7532 20749; CA 20750 20749 20748; CX 20748 7532 7531; CX 20747 7531 8038; CX 1986 7531 20746; CX 1985 7973 20743; CX 7974 7531 20745; CA 20746 20745 20744;
  CX 20744 7531 7530; CX 7973 7530 20741; CX 20743 7530 8037; CX 1985 7530 20742; CA 20742 20741 20740; CX 20740 7530 7529; CX 1984 7972 20739; CX 20739 7529 8036;
  CX 1984 7529 20738; CX 7972 7529 20737; CA 20738 20737 20736; CX 20736 7529 7528; CX 1983 7463 20735; CX 20735 7528 8035; CX 1983 7528 20734; CX 7463 7528 20733;
  CA 20734 20733 20732; CX 20732 7528 7527; CX 2107 8094 20723; CX 20723 7652 8158; CX 8094 7652 20721; CA 20722 20721 20720; CX 20720 7652 7651; CX 2106 8093 20719;
  CX 20719 7651 8157; CX 2106 7651 20718; CX 8093 7651 20717; CA 20718 20717 20716; CX 20716 7651 7650; CX 2105 8092 20715; CX 20715 7650 8156; CX 2105 7650 20714;
  CX 8092 7650 20713; CA 20714 20713 20712; CX 20712 7650 7649; CX 2104 8091 20711; CX 20711 7649 8155; CX 2104 7649 20710; CX 8091 7649 20709; CA 20710 20709 20708;
  CX 20708 7649 7648; CX 2103 8090 20707; CX 20707 7648 8154; CX 2103 7648 20706; CX 8090 7648 20705; CA 20706 20705 20704; CX 20704 7648 7647; CX 2102 8089 20703;
  CX 20703 7647 8153; CX 2102 7647 20702; CX 8089 7647 20701; CA 20702 20701 20700; CX 20700 7647 7646; CX 2101 8088 20699; CX 20699 7646 8152; CX 2101 7646 20698;
  CX 8088 7646 20697; CA 20698 20697 20696; CX 20696 7646 7645; CX 2100 8087 20695; CX 20695 7645 8151; CX 2100 7645 20694; CX 8087 7645 20693; CA 20694 20693 20692;
  CX 20692 7645 7644; CX 2099 8086 20691; CX 20691 7644 8150; CX 2099 7644 20690; CX 8086 7644 20689; CA 20690 20689 20688; CX 20688 7644 7643; CX 2098 8085 20687;
  CX 20687 7643 8149; CX 2098 7643 20686; CX 8085 7643 20685; CA 20686 20685 20684; CX 20684 7643 7642; CX 2097 8084 20683; CX 20683 7642 8148; CX 2097 7642 20682].
(** Lines 15205-15604 of the file. *)
Definition mult2_64_38 : list cg := [
  CX 8084 7642 20681; CA 20682 20681 20680; CX 20680 7642 7641; CX 2096 8083 20679; CX 20679 7641 8147; CX 2096 7641 20678; CX 8083 7641 20677; CA 20678 20677 20676;
  CX 20676 7641 7640; CX 2095 8082 20675; CX 20675 7640 8146; CX 2095 7640 20674; CX 8082 7640 20673; CA 20674 20673 20672; CX 20672 7640 7639; CX 2094 8081 20671;
  CX 20671 7639 8145; CX 2094 7639 20670; CX 8081 7639 20669; CA 20670 20669 20668; CX 20668 7639 7638; CX 2093 8080 20667; CX 20667 7638 8144; CX 2093 7638 20666;
  CX 8080 7638 20665; CA 20666 20665 20664; CX 20664 7638 7637; CX 2092 8079 20663; CX 20663 7637 8143; CX 2092 7637 20662; CX 8079 7637 20661; CA 20662 20661 20660;
  CX 20660 7637 7636; CX 2091 8078 20659; CX 20659 7636 8142; CX 2091 7636 20658; CX 8078 7636 20657; CA 20658 20657 20656; CX 20656 7636 7635; CX 2090 8077 20655;
  CX 20655 7635 8141; CX 2090 7635 20654; CX 8077 7635 20653; CA 20654 20653 20652; CX 20652 7635 7634; CX 2089 8076 20651; CX 20651 7634 8140; CX 2089 7634 20650;
  CX 8076 7634 20649; CA 20650 20649 20648; CX 20648 7634 7633; CX 2088 8075 20647; CX 20647 7633 8139; CX 2088 7633 20646; CX 8075 7633 20645; CA 20646 20645 20644;
  CX 20644 7633 7632; CX 2087 8074 20643; CX 20643 7632 8138; CX 2087 7632 20642; CX 8074 7632 20641; CA 20642 20641 20640; CX 20640 7632 7631; CX 2086 8073 20639;
  CX 20639 7631 8137; CX 2086 7631 20638; CX 8073 7631 20637; CA 20638 20637 20636; CX 20636 7631 7630; CX 2085 8072 20635; CX 20635 7630 8136; CX 2085 7630 20634;
  CX 8072 7630 20633; CA 20634 20633 20632; CX 20632 7630 7629; CX 2084 8071 20631; CX 20631 7629 8135; CX 2084 7629 20630; CX 8071 7629 20629; CA 20630 20629 20628;
  CX 20628 7629 7628; CX 2083 8070 20627; CX 20627 7628 8134; CX 2083 7628 20626; CX 8070 7628 20625; CA 20626 20625 20624; CX 20624 7628 7627; CX 2082 8069 20623;
  CX 20623 7627 8133; CX 2082 7627 20622; CX 8069 7627 20621; CA 20622 20621 20620; CX 20620 7627 7626; CX 2081 8068 20619; CX 20619 7626 8132; CX 2081 7626 20618;
  CX 8068 7626 20617; CA 20618 20617 20616; CX 20616 7626 7625; CX 2080 8067 20615; CX 20615 7625 8131; CX 2080 7625 20614; CX 8067 7625 20613; CA 20614 20613 20612;
  CX 20612 7625 7624; CX 2079 8066 20611; CX 20611 7624 8130; CX 2079 7624 20610; CX 8066 7624 20609; CA 20610 20609 20608; CX 20608 7624 7623; CX 2078 8065 20607;
  CX 20607 7623 8129; CX 2078 7623 20606; CX 8065 7623 20605; CA 20606 20605 20604; CX 20604 7623 7622; CX 2077 8064 20603; CX 20603 7622 8128; CX 2077 7622 20602;
  CX 8064 7622 20601; CA 20602 20601 20600; CX 20600 7622 7621; CX 2076 8063 20599; CX 20599 7621 8127; CX 2076 7621 20598; CX 8063 7621 20597; CA 20598 20597 20596;
  CX 20596 7621 7620; CX 2075 8062 20595; CX 20595 7620 8126; CX 2075 7620 20594; CX 8062 7620 20593; CA 20594 20593 20592; CX 20592 7620 7619; CX 2074 8061 20591;
  CX 20591 7619 8125; CX 2074 7619 20590; CX 8061 7619 20589; CA 20590 20589 20588; CX 20588 7619 7618; CX 2073 8060 20587; CX 20587 7618 8124; CX 2073 7618 20586;
  CX 8060 7618 20585; CA 20586 20585 20584; CX 20584 7618 7617; CX 2072 8059 20583; CX 20583 7617 8123; CX 2072 7617 20582; CX 8059 7617 20581; CA 20582 20581 20580;
  CX 20580 7617 7616; CX 2071 8058 20579; CX 20579 7616 8122; CX 2071 7616 20578; CX 8058 7616 20577; CA 20578 20577 20576; CX 20576 7616 7615; CX 2070 8057 20575;
  CX 20575 7615 8121; CX 2070 7615 20574; CX 8057 7615 20573; CA 20574 20573 20572; CX 20572 7615 7614; CX 2069 8056 20571; CX 20571 7614 8120; CX 2069 7614 20570;
  CX 8056 7614 20569; CA 20570 20569 20568; CX 20568 7614 7613; CX 2068 8055 20567; CX 20567 7613 8119; CX 2068 7613 20566; CX 8055 7613 20565; CA 20566 20565 20564;
  CX 20564 7613 7612; CX 2067 8054 20563; CX 20563 7612 8118; CX 2132 8118 20315; CX 2067 7612 20562; CX 8054 7612 20561; CA 20562 20561 20560; CX 20560 7612 7611;
  CX 2066 8053 20559; CX 20559 7611 8117; CX 2066 7611 20558; CX 8053 7611 20557; CA 20558 20557 20556; CX 20556 7611 7610; CX 2065 8052 20555; CX 20555 7610 8116;
  CX 2065 7610 20554; CX 8052 7610 20553; CA 20554 20553 20552; CX 20552 7610 7609; CX 2064 8051 20551; CX 20551 7609 8115; CX 2064 7609 20550; CX 8051 7609 20549;
  CA 20550 20549 20548; CX 20548 7609 7608; CX 2063 8050 20547; CX 20547 7608 8114; CX 2063 7608 20546; CX 8050 7608 20545; CA 20546 20545 20544; CX 20544 7608 7607;
  CX 2062 8049 20543; CX 20543 7607 8113; CX 2062 7607 20542; CX 8049 7607 20541; CA 20542 20541 20540; CX 20540 7607 7606; CX 2061 8048 20539; CX 20539 7606 8112;
  CX 2061 7606 20538; CX 8048 7606 20537; CA 20538 20537 20536; CX 20536 7606 7605; CX 2060 8047 20535; CX 20535 7605 8111; CX 2060 7605 20534; CX 8047 7605 20533;
  CA 20534 20533 20532; CX 20532 7605 7604; CX 2059 8046 20531; CX 20531 7604 8110; CX 2059 7604 20530; CX 8046 7604 20529; CA 20530 20529 20528; CX 20528 7604 7603;
  CX 2058 8045 20527; CX 20527 7603 8109; CX 2058 7603 20526; CX 8045 7603 20525; CA 20526 20525 20524; CX 20524 7603 7602; CX 2057 8044 20523; CX 20523 7602 8108;
  CX 2057 7602 20522; CX 8044 7602 20521; CA 20522 20521 20520; CX 20520 7602 7601; CX 2056 8043 20519; CX 20519 7601 8107; CX 2056 7601 20518; CX 8043 7601 20517;
  CA 20518 20517 20516; CX 20516 7601 7600; CX 2055 7600 20514; CX 2055 8042 20515; CX 20515 7600 8106; CX 8042 7600 20513; CA 20514 20513 20512; CX 20512 7600 7599;
  CX 2054 7599 20510; CX 2054 8041 20511; CX 20511 7599 8105; CX 8041 7599 20509; CA 20510 20509 20508; CX 20508 7599 7598; CX 2053 7598 20506; CX 2053 8040 20507;
  CX 20507 7598 8104; CX 2118 8104 20259; CX 8040 7598 20505; CA 20506 20505 20504; CX 20504 7598 7597; CX 2052 7597 20502; CX 2052 8039 20503; CX 20503 7597 8103;
  CX 2117 8103 20255; CX 8039 7597 20501; CA 20502 20501 20500; CX 20500 7597 7596; CX 2051 7596 20498; CX 2051 8038 20499; CX 20499 7596 8102; CX 8038 7596 20497;
  CA 20498 20497 20496; CX 20496 7596 7595; CX 2050 7595 20494; CX 2050 8037 20495; CX 20495 7595 8101; CX 8037 7595 20493; CA 20494 20493 20492; CX 20492 7595 7594;
  CX 8036 7594 20489; CX 2049 7594 20490; CX 2049 8036 20491; CX 20491 7594 8100; CA 20490 20489 20488; CX 20488 7594 7593; CX 2048 7593 20486; CX 2048 8035 20487;
  CX 20487 7593 8099; CX 8035 7593 20485; CA 20486 20485 20484; CX 20484 7593 7592; CX 2047 7592 20482; CX 2047 7527 20483; CX 20483 7592 8098; CX 7527 7592 20481;
  CA 20482 20481 20480; CX 20480 7592 7591; CX 2111 7591 20231; CX 2172 8158 20475; CX 20475 7717 8222; CX 8158 7717 20473; CA 20474 20473 20472; CX 20472 7717 7716;
  CX 2171 7716 20470; CX 2171 8157 20471; CX 20471 7716 8221; CX 8157 7716 20469; CA 20470 20469 20468; CX 20468 7716 7715; CX 2170 7715 20466; CX 2170 8156 20467;
  CX 20467 7715 8220; CX 8156 7715 20465; CA 20466 20465 20464; CX 20464 7715 7714; CX 2169 7714 20462; CX 2169 8155 20463; CX 20463 7714 8219; CX 8155 7714 20461;
  CA 20462 20461 20460; CX 20460 7714 7713; CX 2168 7713 20458; CX 2168 8154 20459; CX 20459 7713 8218; CX 8154 7713 20457; CA 20458 20457 20456; CX 20456 7713 7712;
  CX 2167 7712 20454; CX 2167 8153 20455; CX 20455 7712 8217; CX 8153 7712 20453; CA 20454 20453 20452; CX 20452 7712 7711; CX 2166 7711 20450; CX 2166 8152 20451;
  CX 20451 7711 8216; CX 8152 7711 20449; CA 20450 20449 20448; CX 20448 7711 7710; CX 2165 7710 20446; CX 2165 8151 20447; CX 20447 7710 8215; CX 8151 7710 20445;
  CA 20446 20445 20444; CX 20444 7710 7709; CX 2164 7709 20442; CX 2164 8150 20443; CX 20443 7709 8214; CX 8150 7709 20441; CA 20442 20441 20440; CX 20440 7709 7708;
  CX 2163 7708 20438; CX 2163 8149 20439; CX 20439 7708 8213; CX 8149 7708 20437; CA 20438 20437 20436; CX 20436 7708 7707; CX 2162 7707 20434; CX 2162 8148 20435;
  CX 20435 7707 8212; CX 8148 7707 20433; CA 20434 20433 20432; CX 20432 7707 7706; CX 2161 7706 20430; CX 2161 8147 20431; CX 20431 7706 8211; CX 8147 7706 20429;
  CA 20430 20429 20428; CX 20428 7706 7705; CX 2160 7705 20426; CX 2160 8146 20427; CX 20427 7705 8210; CX 8146 7705 20425; CA 20426 20425 20424; CX 20424 7705 7704;
  CX 2159 7704 20422; CX 2159 8145 20423; CX 20423 7704 8209; CX 8145 7704 20421; CA 20422 20421 20420; CX 20420 7704 7703; CX 2158 7703 20418; CX 2158 8144 20419;
  CX 20419 7703 8208; CX 8144 7703 20417; CA 20418 20417 20416; CX 20416 7703 7702; CX 2157 7702 20414; CX 2157 8143 20415; CX 20415 7702 8207; CX 8143 7702 20413].
(** Lines 15605-16004 of the file. *)
Definition mult2_64_39 : list cg := [
  CA 20414 20413 20412; CX 20412 7702 7701; CX 2156 7701 20410; CX 2156 8142 20411; CX 20411 7701 8206; CX 8142 7701 20409; CA 20410 20409 20408; CX 20408 7701 7700;
  CX 2155 7700 20406; CX 2155 8141 20407; CX 20407 7700 8205; CX 8141 7700 20405; CA 20406 20405 20404; CX 20404 7700 7699; CX 2154 7699 20402; CX 2154 8140 20403;
  CX 20403 7699 8204; CX 8140 7699 20401; CA 20402 20401 20400; CX 20400 7699 7698; CX 2153 7698 20398; CX 2153 8139 20399; CX 20399 7698 8203; CX 8139 7698 20397;
  CA 20398 20397 20396; CX 20396 7698 7697; CX 2152 7697 20394; CX 2152 8138 20395; CX 20395 7697 8202; CX 8138 7697 20393; CA 20394 20393 20392; CX 20392 7697 7696;
  CX 2151 7696 20390; CX 2151 8137 20391; CX 20391 7696 8201; CX 8137 7696 20389; CA 20390 20389 20388; CX 20388 7696 7695; CX 2150 7695 20386; CX 2150 8136 20387;
  CX 20387 7695 8200; CX 8136 7695 20385; CA 20386 20385 20384; CX 20384 7695 7694; CX 2149 7694 20382; CX 2149 8135 20383; CX 20383 7694 8199; CX 8135 7694 20381;
  CA 20382 20381 20380; CX 20380 7694 7693; CX 2148 7693 20378; CX 2148 8134 20379; CX 20379 7693 8198; CX 8134 7693 20377; CA 20378 20377 20376; CX 20376 7693 7692;
  CX 2147 7692 20374; CX 2147 8133 20375; CX 20375 7692 8197; CX 8133 7692 20373; CA 20374 20373 20372; CX 20372 7692 7691; CX 2146 7691 20370; CX 2146 8132 20371;
  CX 20371 7691 8196; CX 8132 7691 20369; CA 20370 20369 20368; CX 20368 7691 7690; CX 2145 7690 20366; CX 2145 8131 20367; CX 20367 7690 8195; CX 8131 7690 20365;
  CA 20366 20365 20364; CX 20364 7690 7689; CX 2144 7689 20362; CX 2144 8130 20363; CX 20363 7689 8194; CX 8130 7689 20361; CA 20362 20361 20360; CX 20360 7689 7688;
  CX 2143 7688 20358; CX 2143 8129 20359; CX 20359 7688 8193; CX 8129 7688 20357; CA 20358 20357 20356; CX 20356 7688 7687; CX 2142 7687 20354; CX 2142 8128 20355;
  CX 20355 7687 8192; CX 8128 7687 20353; CA 20354 20353 20352; CX 20352 7687 7686; CX 2141 7686 20350; CX 2141 8127 20351; CX 20351 7686 8191; CX 8127 7686 20349;
  CA 20350 20349 20348; CX 20348 7686 7685; CX 2140 7685 20346; CX 2140 8126 20347; CX 20347 7685 8190; CX 8126 7685 20345; CA 20346 20345 20344; CX 20344 7685 7684;
  CX 2139 7684 20342; CX 2139 8125 20343; CX 20343 7684 8189; CX 8125 7684 20341; CA 20342 20341 20340; CX 20340 7684 7683; CX 2138 7683 20338; CX 2138 8124 20339;
  CX 20339 7683 8188; CX 8124 7683 20337; CA 20338 20337 20336; CX 20336 7683 7682; CX 2137 7682 20334; CX 2137 8123 20335; CX 20335 7682 8187; CX 8123 7682 20333;
  CA 20334 20333 20332; CX 20332 7682 7681; CX 2136 7681 20330; CX 2136 8122 20331; CX 20331 7681 8186; CX 8122 7681 20329; CA 20330 20329 20328; CX 20328 7681 7680;
  CX 2135 7680 20326; CX 2135 8121 20327; CX 20327 7680 8185; CX 8121 7680 20325; CA 20326 20325 20324; CX 20324 7680 7679; CX 2134 7679 20322; CX 2134 8120 20323;
  CX 20323 7679 8184; CX 8120 7679 20321; CA 20322 20321 20320; CX 20320 7679 7678; CX 2133 7678 20318; CX 2133 8119 20319; CX 20319 7678 8183; CX 8119 7678 20317;
  CA 20318 20317 20316; CX 20316 7678 7677; CX 20315 7677 8182; CX 2197 8182 20067; CX 8118 7677 20313; CX 2131 8117 20311; CX 2132 7677 20314; CA 20314 20313 20312;
  CX 20312 7677 7676; CX 8117 7676 20309; CX 20311 7676 8181; CX 2130 8116 20307; CX 2131 7676 20310; CA 20310 20309 20308; CX 20308 7676 7675; CX 8116 7675 20305;
  CX 20307 7675 8180; CX 2129 8115 20303; CX 2130 7675 20306; CA 20306 20305 20304; CX 20304 7675 7674; CX 8115 7674 20301; CX 20303 7674 8179; CX 2128 8114 20299;
  CX 2129 7674 20302; CA 20302 20301 20300; CX 20300 7674 7673; CX 8114 7673 20297; CX 20299 7673 8178; CX 2127 8113 20295; CX 2128 7673 20298; CA 20298 20297 20296;
  CX 20296 7673 7672; CX 8113 7672 20293; CX 20295 7672 8177; CX 2126 8112 20291; CX 2127 7672 20294; CA 20294 20293 20292; CX 20292 7672 7671; CX 8112 7671 20289;
  CX 20291 7671 8176; CX 2125 8111 20287; CX 2126 7671 20290; CA 20290 20289 20288; CX 20288 7671 7670; CX 20287 7670 8175; CX 2190 8175 20039; CX 8111 7670 20285;
  CX 2125 7670 20286; CA 20286 20285 20284; CX 20284 7670 7669; CX 2124 8110 20283; CX 20283 7669 8174; CX 8110 7669 20281; CX 2124 7669 20282; CA 20282 20281 20280;
  CX 20280 7669 7668; CX 2123 8109 20279; CX 20279 7668 8173; CX 8109 7668 20277; CX 2123 7668 20278; CA 20278 20277 20276; CX 20276 7668 7667; CX 2122 8108 20275;
  CX 20275 7667 8172; CX 8108 7667 20273; CX 2122 7667 20274; CA 20274 20273 20272; CX 20272 7667 7666; CX 2121 8107 20271; CX 20271 7666 8171; CX 8107 7666 20269;
  CX 2121 7666 20270; CA 20270 20269 20268; CX 20268 7666 7665; CX 2120 8106 20267; CX 20267 7665 8170; CX 8106 7665 20265; CX 2120 7665 20266; CA 20266 20265 20264;
  CX 20264 7665 7664; CX 2119 8105 20263; CX 20263 7664 8169; CX 8105 7664 20261; CX 2119 7664 20262; CA 20262 20261 20260; CX 20260 7664 7663; CX 2118 7663 20258;
  CX 20259 7663 8168; CX 8104 7663 20257; CA 20258 20257 20256; CX 20256 7663 7662; CX 20255 7662 8167; CX 2182 8167 20007; CX 2117 7662 20254; CX 2116 8102 20251;
  CX 8103 7662 20253; CA 20254 20253 20252; CX 20252 7662 7661; CX 20251 7661 8166; CX 2116 7661 20250; CX 2115 8101 20247; CX 8102 7661 20249; CA 20250 20249 20248;
  CX 20248 7661 7660; CX 20247 7660 8165; CX 2115 7660 20246; CX 2114 8100 20243; CX 8101 7660 20245; CA 20246 20245 20244; CX 20244 7660 7659; CX 20243 7659 8164;
  CX 2114 7659 20242; CX 2113 8099 20239; CX 8100 7659 20241; CA 20242 20241 20240; CX 20240 7659 7658; CX 2113 7658 20238; CX 20239 7658 8163; CX 8099 7658 20237;
  CA 20238 20237 20236; CX 20236 7658 7657; CX 8098 7657 20233; CX 2112 8098 20235; CX 20235 7657 8162; CX 2112 7657 20234; CA 20234 20233 20232; CX 20232 7657 7656;
  CX 20231 7656 8161; CX 7591 7656 20229; CX 2111 7656 20230; CA 20230 20229 20228; CX 20228 7656 7655; CX 2175 7655 19979; CX 2237 8222 20227; CX 20227 7782 8286;
  CX 2302 8286 28129; CA 2302 8286 8350; CX 8222 7782 20225; CA 20226 20225 20224; CX 20224 7782 7781; CX 2236 8221 20223; CX 20223 7781 8285; CX 2301 8285 19975;
  CX 19975 8350 8861; CX 2366 8861 28130; CA 2366 8861 8414; CX 8221 7781 20221; CX 2236 7781 20222; CA 20222 20221 20220; CX 20220 7781 7780; CX 2235 8220 20219;
  CX 20219 7780 8284; CX 8220 7780 20217; CX 2235 7780 20218; CA 20218 20217 20216; CX 20216 7780 7779; CX 2234 8219 20215; CX 20215 7779 8283; CX 8219 7779 20213;
  CX 2232 8217 20207; CX 2234 7779 20214; CA 20214 20213 20212; CX 20212 7779 7778; CX 2233 8218 20211; CX 20211 7778 8282; CX 2298 8282 19963; CX 2231 8216 20203;
  CX 2233 7778 20210; CX 8218 7778 20209; CA 20210 20209 20208; CX 20208 7778 7777; CX 20207 7777 8281; CX 2230 8215 20199; CX 2232 7777 20206; CX 8217 7777 20205;
  CA 20206 20205 20204; CX 20204 7777 7776; CX 20203 7776 8280; CX 2229 8214 20195; CX 2231 7776 20202; CX 8216 7776 20201; CA 20202 20201 20200; CX 20200 7776 7775;
  CX 20199 7775 8279; CX 2228 8213 20191; CX 2230 7775 20198; CX 8215 7775 20197; CA 20198 20197 20196; CX 20196 7775 7774; CX 20195 7774 8278; CX 2227 8212 20187;
  CX 2229 7774 20194; CX 8214 7774 20193; CA 20194 20193 20192; CX 20192 7774 7773; CX 20191 7773 8277; CX 2293 8277 19943; CX 2226 8211 20183; CX 2228 7773 20190;
  CX 8213 7773 20189; CA 20190 20189 20188; CX 20188 7773 7772; CX 20187 7772 8276; CX 2292 8276 19939; CX 2227 7772 20186; CX 8212 7772 20185; CA 20186 20185 20184;
  CX 20184 7772 7771; CX 20183 7771 8275; CX 2226 7771 20182; CX 2225 8210 20179; CX 8211 7771 20181; CA 20182 20181 20180; CX 20180 7771 7770; CX 20179 7770 8274;
  CX 2225 7770 20178; CX 2224 8209 20175; CX 8210 7770 20177; CA 20178 20177 20176; CX 20176 7770 7769; CX 20175 7769 8273; CX 2224 7769 20174; CX 2223 8208 20171;
  CX 8209 7769 20173; CA 20174 20173 20172; CX 20172 7769 7768; CX 20171 7768 8272; CX 2288 8272 19923; CX 2223 7768 20170; CX 2222 8207 20167; CX 8208 7768 20169;
  CA 20170 20169 20168; CX 20168 7768 7767; CX 20167 7767 8271; CX 2222 7767 20166; CX 2221 8206 20163; CX 8207 7767 20165; CA 20166 20165 20164; CX 20164 7767 7766;
  CX 20163 7766 8270; CX 2221 7766 20162; CX 2220 8205 20159; CX 8206 7766 20161; CA 20162 20161 20160; CX 20160 7766 7765; CX 20159 7765 8269; CX 2285 8269 19911;
  CX 2220 7765 20158; CX 2219 8204 20155; CX 8205 7765 20157; CA 20158 20157 20156; CX 20156 7765 7764; CX 2219 7764 20154; CX 20155 7764 8268; CX 2284 8268 19907].
(** Lines 16005-16404 of the file. *)
Definition mult2_64_40 : list cg := [
  CX 8204 7764 20153; CA 20154 20153 20152; CX 20152 7764 7763; CX 2218 8203 20151; CX 20151 7763 8267; CX 2218 7763 20150; CX 8203 7763 20149; CA 20150 20149 20148;
  CX 20148 7763 7762; CX 2217 8202 20147; CX 20147 7762 8266; CX 2217 7762 20146; CX 8202 7762 20145; CA 20146 20145 20144; CX 20144 7762 7761; CX 2216 8201 20143;
  CX 20143 7761 8265; CX 2216 7761 20142; CX 8201 7761 20141; CA 20142 20141 20140; CX 20140 7761 7760; CX 2215 8200 20139; CX 20139 7760 8264; CX 2280 8264 19891;
  CX 2215 7760 20138; CX 8200 7760 20137; CA 20138 20137 20136; CX 20136 7760 7759; CX 2214 8199 20135; CX 20135 7759 8263; CX 2214 7759 20134; CX 8199 7759 20133;
  CA 20134 20133 20132; CX 20132 7759 7758; CX 2213 8198 20131; CX 20131 7758 8262; CX 2213 7758 20130; CX 8198 7758 20129; CA 20130 20129 20128; CX 20128 7758 7757;
  CX 8197 7757 20125; CX 2212 8197 20127; CX 20127 7757 8261; CX 2277 8261 19879; CX 2212 7757 20126; CA 20126 20125 20124; CX 20124 7757 7756; CX 2211 7756 20122;
  CX 2211 8196 20123; CX 20123 7756 8260; CX 2276 8260 19875; CX 8196 7756 20121; CA 20122 20121 20120; CX 20120 7756 7755; CX 2210 7755 20118; CX 2210 8195 20119;
  CX 20119 7755 8259; CX 8195 7755 20117; CA 20118 20117 20116; CX 20116 7755 7754; CX 2209 7754 20114; CX 2209 8194 20115; CX 20115 7754 8258; CX 8194 7754 20113;
  CA 20114 20113 20112; CX 20112 7754 7753; CX 2208 7753 20110; CX 2208 8193 20111; CX 20111 7753 8257; CX 8193 7753 20109; CA 20110 20109 20108; CX 20108 7753 7752;
  CX 2207 7752 20106; CX 2207 8192 20107; CX 20107 7752 8256; CX 2272 8256 19859; CX 8192 7752 20105; CA 20106 20105 20104; CX 20104 7752 7751; CX 2206 7751 20102;
  CX 2206 8191 20103; CX 20103 7751 8255; CX 8191 7751 20101; CA 20102 20101 20100; CX 20100 7751 7750; CX 2205 7750 20098; CX 2205 8190 20099; CX 20099 7750 8254;
  CX 8190 7750 20097; CA 20098 20097 20096; CX 20096 7750 7749; CX 8189 7749 20093; CX 2204 8189 20095; CX 20095 7749 8253; CX 2269 8253 19847; CX 2204 7749 20094;
  CA 20094 20093 20092; CX 20092 7749 7748; CX 8188 7748 20089; CX 2203 8188 20091; CX 20091 7748 8252; CX 2268 8252 19843; CX 2203 7748 20090; CA 20090 20089 20088;
  CX 20088 7748 7747; CX 8187 7747 20085; CX 2202 8187 20087; CX 20087 7747 8251; CX 2202 7747 20086; CA 20086 20085 20084; CX 20084 7747 7746; CX 8186 7746 20081;
  CX 2201 8186 20083; CX 20083 7746 8250; CX 2201 7746 20082; CA 20082 20081 20080; CX 20080 7746 7745; CX 8185 7745 20077; CX 2200 8185 20079; CX 20079 7745 8249;
  CX 2200 7745 20078; CA 20078 20077 20076; CX 20076 7745 7744; CX 8184 7744 20073; CX 2199 8184 20075; CX 20075 7744 8248; CX 2264 8248 19827; CX 2199 7744 20074;
  CA 20074 20073 20072; CX 20072 7744 7743; CX 2198 7743 20070; CX 2198 8183 20071; CX 20071 7743 8247; CX 8183 7743 20069; CA 20070 20069 20068; CX 20068 7743 7742;
  CX 2197 7742 20066; CX 8182 7742 20065; CX 20067 7742 8246; CA 20066 20065 20064; CX 20064 7742 7741; CX 2196 7741 20062; CX 2196 8181 20063; CX 20063 7741 8245;
  CX 2261 8245 19815; CX 8181 7741 20061; CA 20062 20061 20060; CX 20060 7741 7740; CX 2195 8180 20059; CX 20059 7740 8244; CX 2260 8244 19811; CX 2195 7740 20058;
  CX 8180 7740 20057; CA 20058 20057 20056; CX 20056 7740 7739; CX 2194 7739 20054; CX 2194 8179 20055; CX 20055 7739 8243; CX 8179 7739 20053; CA 20054 20053 20052;
  CX 20052 7739 7738; CX 2193 7738 20050; CX 8178 7738 20049; CX 2193 8178 20051; CX 20051 7738 8242; CX 2192 8177 20047; CA 20050 20049 20048; CX 20048 7738 7737;
  CX 20047 7737 8241; CX 2192 7737 20046; CX 8177 7737 20045; CA 20046 20045 20044; CX 20044 7737 7736; CX 2191 7736 20042; CX 2191 8176 20043; CX 20043 7736 8240;
  CX 2256 8240 19795; CX 8176 7736 20041; CA 20042 20041 20040; CX 20040 7736 7735; CX 2190 7735 20038; CX 8175 7735 20037; CX 20039 7735 8239; CA 20038 20037 20036;
  CX 20036 7735 7734; CX 2189 7734 20034; CX 2189 8174 20035; CX 20035 7734 8238; CX 8174 7734 20033; CA 20034 20033 20032; CX 20032 7734 7733; CX 2188 8173 20031;
  CX 20031 7733 8237; CX 2253 8237 19783; CX 2188 7733 20030; CX 8173 7733 20029; CA 20030 20029 20028; CX 20028 7733 7732; CX 2187 7732 20026; CX 2187 8172 20027;
  CX 20027 7732 8236; CX 2252 8236 19779; CX 8172 7732 20025; CA 20026 20025 20024; CX 20024 7732 7731; CX 2186 7731 20022; CX 8171 7731 20021; CX 2186 8171 20023;
  CX 20023 7731 8235; CX 2185 8170 20019; CA 20022 20021 20020; CX 20020 7731 7730; CX 20019 7730 8234; CX 2185 7730 20018; CX 8170 7730 20017; CA 20018 20017 20016;
  CX 20016 7730 7729; CX 2184 7729 20014; CX 2184 8169 20015; CX 20015 7729 8233; CX 8169 7729 20013; CA 20014 20013 20012; CX 20012 7729 7728; CX 2183 7728 20010;
  CX 2183 8168 20011; CX 20011 7728 8232; CX 2248 8232 19763; CX 8168 7728 20009; CA 20010 20009 20008; CX 20008 7728 7727; CX 20007 7727 8231; CX 2182 7727 20006;
  CX 8167 7727 20005; CA 20006 20005 20004; CX 20004 7727 7726; CX 2181 8166 20003; CX 20003 7726 8230; CX 2181 7726 20002; CX 8166 7726 20001; CA 20002 20001 20000;
  CX 20000 7726 7725; CX 8165 7725 19997; CX 2180 8165 19999; CX 19999 7725 8229; CX 2245 8229 19751; CX 2180 7725 19998; CA 19998 19997 19996; CX 19996 7725 7724;
  CX 8164 7724 19993; CX 2179 7724 19994; CA 19994 19993 19992; CX 2179 8164 19995; CX 19995 7724 8228; CX 2244 8228 19747; CX 19992 7724 7723; CX 2178 7723 19990;
  CX 2178 8163 19991; CX 19991 7723 8227; CX 2243 8227 19743; CX 8163 7723 19989; CA 19990 19989 19988; CX 19988 7723 7722; CX 2177 7722 19986; CX 2177 8162 19987;
  CX 19987 7722 8226; CX 2242 8226 19739; CX 8162 7722 19985; CA 19986 19985 19984; CX 19984 7722 7721; CX 2176 8161 19983; CX 19983 7721 8225; CX 2176 7721 19982;
  CX 8161 7721 19981; CA 19982 19981 19980; CX 19980 7721 7720; CX 19979 7720 8224; CX 2175 7720 19978; CX 7655 7720 19977; CA 19978 19977 19976; CX 19976 7720 7719;
  CX 2301 8350 19974; CX 8285 8350 19973; CA 19974 19973 19972; CX 19972 8350 8349; CX 2300 8349 19970; CX 2300 8284 19971; CX 19971 8349 8860; CX 8860 8414 19721;
  CX 2365 8860 19723; CX 19723 8414 8924; CX 2430 8924 28131; CA 2430 8924 8478; CX 2429 8478 19470; CX 8284 8349 19969; CA 19970 19969 19968; CX 19968 8349 8348;
  CX 2299 8348 19966; CX 2299 8283 19967; CX 19967 8348 8859; CX 2364 8859 19719; CX 8283 8348 19965; CA 19966 19965 19964; CX 19964 8348 8347; CX 19963 8347 8858;
  CX 2363 8858 19715; CX 2298 8347 19962; CX 8282 8347 19961; CA 19962 19961 19960; CX 19960 8347 8346; CX 2297 8281 19959; CX 19959 8346 8857; CX 2362 8857 19711;
  CX 2297 8346 19958; CX 8281 8346 19957; CA 19958 19957 19956; CX 19956 8346 8345; CX 8280 8345 19953; CX 2296 8280 19955; CX 19955 8345 8856; CX 2296 8345 19954;
  CA 19954 19953 19952; CX 19952 8345 8344; CX 8279 8344 19949; CX 2295 8344 19950; CA 19950 19949 19948; CX 2295 8279 19951; CX 19951 8344 8855; CX 19948 8344 8343;
  CX 8278 8343 19945; CX 2294 8343 19946; CA 19946 19945 19944; CX 2294 8278 19947; CX 19947 8343 8854; CX 19944 8343 8342; CX 2293 8342 19942; CX 19943 8342 8853;
  CX 2358 8853 19695; CX 8277 8342 19941; CA 19942 19941 19940; CX 19940 8342 8341; CX 2292 8341 19938; CX 8276 8341 19937; CX 19939 8341 8852; CA 19938 19937 19936;
  CX 19936 8341 8340; CX 8275 8340 19933; CX 2291 8275 19935; CX 19935 8340 8851; CX 2290 8274 19931; CX 2291 8340 19934; CA 19934 19933 19932; CX 19932 8340 8339;
  CX 19931 8339 8850; CX 2355 8850 19683; CX 2290 8339 19930; CX 8274 8339 19929; CA 19930 19929 19928; CX 19928 8339 8338; CX 2289 8273 19927; CX 19927 8338 8849;
  CX 2354 8849 19679; CX 2289 8338 19926; CX 8273 8338 19925; CA 19926 19925 19924; CX 19924 8338 8337; CX 2288 8337 19922; CX 19923 8337 8848; CX 2353 8848 19675;
  CX 8272 8337 19921; CA 19922 19921 19920; CX 19920 8337 8336; CX 2287 8336 19918; CX 8271 8336 19917; CA 19918 19917 19916; CX 19916 8336 8335; CX 8270 8335 19913;
  CX 2287 8271 19919; CX 19919 8336 8847; CX 2352 8847 19671; CX 2286 8335 19914; CA 19914 19913 19912; CX 2286 8270 19915; CX 19915 8335 8846; CX 2351 8846 19667;
  CX 19912 8335 8334; CX 2285 8334 19910; CX 19911 8334 8845; CX 8269 8334 19909; CA 19910 19909 19908; CX 19908 8334 8333; CX 2284 8333 19906; CX 8268 8333 19905;
  CX 19907 8333 8844; CX 2349 8844 19659; CA 19906 19905 19904; CX 19904 8333 8332; CX 8267 8332 19901; CX 2283 8267 19903; CX 19903 8332 8843; CX 2348 8843 19655].
(** Lines 16405-16804 of the file. *)
Definition mult2_64_41 : list cg := [
  CX 2282 8266 19899; CX 2283 8332 19902; CA 19902 19901 19900; CX 19900 8332 8331; CX 19899 8331 8842; CX 2347 8842 19651; CX 2282 8331 19898; CX 8266 8331 19897;
  CA 19898 19897 19896; CX 19896 8331 8330; CX 2281 8265 19895; CX 19895 8330 8841; CX 2346 8841 19647; CX 2281 8330 19894; CX 8265 8330 19893; CA 19894 19893 19892;
  CX 19892 8330 8329; CX 2280 8329 19890; CX 19891 8329 8840; CX 2345 8840 19643; CX 8264 8329 19889; CA 19890 19889 19888; CX 19888 8329 8328; CX 2279 8328 19886;
  CX 8263 8328 19885; CA 19886 19885 19884; CX 19884 8328 8327; CX 8262 8327 19881; CX 2279 8263 19887; CX 19887 8328 8839; CX 2344 8839 19639; CX 2278 8327 19882;
  CA 19882 19881 19880; CX 2278 8262 19883; CX 19883 8327 8838; CX 2343 8838 19635; CX 19880 8327 8326; CX 2277 8326 19878; CX 19879 8326 8837; CX 2342 8837 19631;
  CX 8261 8326 19877; CA 19878 19877 19876; CX 19876 8326 8325; CX 2276 8325 19874; CX 8260 8325 19873; CX 19875 8325 8836; CX 2341 8836 19627; CA 19874 19873 19872;
  CX 19872 8325 8324; CX 8259 8324 19869; CX 2275 8259 19871; CX 19871 8324 8835; CX 2274 8258 19867; CX 2275 8324 19870; CA 19870 19869 19868; CX 19868 8324 8323;
  CX 19867 8323 8834; CX 2339 8834 19619; CX 2274 8323 19866; CX 8258 8323 19865; CA 19866 19865 19864; CX 19864 8323 8322; CX 2273 8257 19863; CX 19863 8322 8833;
  CX 2338 8833 19615; CX 2273 8322 19862; CX 8257 8322 19861; CA 19862 19861 19860; CX 19860 8322 8321; CX 2272 8321 19858; CX 19859 8321 8832; CX 2337 8832 19611;
  CX 8256 8321 19857; CA 19858 19857 19856; CX 19856 8321 8320; CX 2271 8320 19854; CX 8255 8320 19853; CA 19854 19853 19852; CX 19852 8320 8319; CX 8254 8319 19849;
  CX 2271 8255 19855; CX 19855 8320 8831; CX 2336 8831 19607; CX 2270 8319 19850; CA 19850 19849 19848; CX 2270 8254 19851; CX 19851 8319 8830; CX 2335 8830 19603;
  CX 19848 8319 8318; CX 2269 8318 19846; CX 19847 8318 8829; CX 2334 8829 19599; CX 8253 8318 19845; CA 19846 19845 19844; CX 19844 8318 8317; CX 2268 8317 19842;
  CX 8252 8317 19841; CX 19843 8317 8828; CX 2333 8828 19595; CA 19842 19841 19840; CX 19840 8317 8316; CX 8251 8316 19837; CX 2267 8251 19839; CX 19839 8316 8827;
  CX 2332 8827 19591; CX 2266 8250 19835; CX 2267 8316 19838; CA 19838 19837 19836; CX 19836 8316 8315; CX 19835 8315 8826; CX 2331 8826 19587; CX 2266 8315 19834;
  CX 8250 8315 19833; CA 19834 19833 19832; CX 19832 8315 8314; CX 2265 8249 19831; CX 19831 8314 8825; CX 2330 8825 19583; CX 2265 8314 19830; CX 8249 8314 19829;
  CA 19830 19829 19828; CX 19828 8314 8313; CX 2264 8313 19826; CX 19827 8313 8824; CX 2329 8824 19579; CX 8248 8313 19825; CA 19826 19825 19824; CX 19824 8313 8312;
  CX 2263 8312 19822; CX 8247 8312 19821; CA 19822 19821 19820; CX 19820 8312 8311; CX 8246 8311 19817; CX 2263 8247 19823; CX 19823 8312 8823; CX 2328 8823 19575;
  CX 2262 8311 19818; CA 19818 19817 19816; CX 2262 8246 19819; CX 19819 8311 8822; CX 2327 8822 19571; CX 19816 8311 8310; CX 2261 8310 19814; CX 19815 8310 8821;
  CX 2326 8821 19567; CX 8245 8310 19813; CA 19814 19813 19812; CX 19812 8310 8309; CX 2260 8309 19810; CX 8244 8309 19809; CX 19811 8309 8820; CX 2325 8820 19563;
  CA 19810 19809 19808; CX 19808 8309 8308; CX 8243 8308 19805; CX 2259 8243 19807; CX 19807 8308 8819; CX 2324 8819 19559; CX 2258 8242 19803; CX 2259 8308 19806;
  CA 19806 19805 19804; CX 19804 8308 8307; CX 19803 8307 8818; CX 2323 8818 19555; CX 2258 8307 19802; CX 8242 8307 19801; CA 19802 19801 19800; CX 19800 8307 8306;
  CX 2257 8241 19799; CX 19799 8306 8817; CX 2322 8817 19551; CX 2257 8306 19798; CX 8241 8306 19797; CA 19798 19797 19796; CX 19796 8306 8305; CX 2256 8305 19794;
  CX 19795 8305 8816; CX 2321 8816 19547; CX 8240 8305 19793; CA 19794 19793 19792; CX 19792 8305 8304; CX 2255 8304 19790; CX 8239 8304 19789; CA 19790 19789 19788;
  CX 19788 8304 8303; CX 8238 8303 19785; CX 2255 8239 19791; CX 19791 8304 8815; CX 2320 8815 19543; CX 2254 8303 19786; CA 19786 19785 19784; CX 2254 8238 19787;
  CX 19787 8303 8814; CX 2319 8814 19539; CX 19784 8303 8302; CX 2253 8302 19782; CX 19783 8302 8813; CX 2318 8813 19535; CX 8237 8302 19781; CA 19782 19781 19780;
  CX 19780 8302 8301; CX 2252 8301 19778; CX 8236 8301 19777; CX 19779 8301 8812; CX 2317 8812 19531; CA 19778 19777 19776; CX 19776 8301 8300; CX 8235 8300 19773;
  CX 2251 8235 19775; CX 19775 8300 8811; CX 2316 8811 19527; CX 2250 8234 19771; CX 2251 8300 19774; CA 19774 19773 19772; CX 19772 8300 8299; CX 19771 8299 8810;
  CX 2315 8810 19523; CX 2250 8299 19770; CX 8234 8299 19769; CA 19770 19769 19768; CX 19768 8299 8298; CX 2249 8233 19767; CX 19767 8298 8809; CX 2314 8809 19519;
  CX 2249 8298 19766; CX 8233 8298 19765; CA 19766 19765 19764; CX 19764 8298 8297; CX 2248 8297 19762; CX 19763 8297 8808; CX 2313 8808 19515; CX 8232 8297 19761;
  CA 19762 19761 19760; CX 19760 8297 8296; CX 2247 8296 19758; CX 8231 8296 19757; CA 19758 19757 19756; CX 19756 8296 8295; CX 8230 8295 19753; CX 2246 8295 19754;
  CX 2247 8231 19759; CX 19759 8296 8807; CX 2312 8807 19511; CA 19754 19753 19752; CX 2246 8230 19755; CX 19755 8295 8806; CX 2311 8806 19507; CX 19752 8295 8294;
  CX 8229 8294 19749; CX 19751 8294 8805; CX 2310 8805 19503; CX 2245 8294 19750; CA 19750 19749 19748; CX 19748 8294 8293; CX 19747 8293 8804; CX 2309 8804 19499;
  CX 8228 8293 19745; CX 2244 8293 19746; CA 19746 19745 19744; CX 19744 8293 8292; CX 19743 8292 8803; CX 2308 8803 19495; CX 2243 8292 19742; CX 8227 8292 19741;
  CA 19742 19741 19740; CX 19740 8292 8291; CX 2242 8291 19738; CX 19739 8291 8802; CX 2307 8802 19491; CX 2241 8225 19735; CX 8226 8291 19737; CA 19738 19737 19736;
  CX 19736 8291 8290; CX 2241 8290 19734; CX 8225 8290 19733; CA 19734 19733 19732; CX 19732 8290 8289; CX 8224 8289 19729; CX 2240 8289 19730; CA 19730 19729 19728;
  CX 19735 8290 8801; CX 2306 8801 19487; CX 19728 8289 8288; CX 2239 8288 19726; CX 7719 8288 19725; CX 2240 8224 19731; CX 19731 8289 8800; CX 2305 8800 19483;
  CA 19726 19725 19724; CX 2239 7719 19727; CX 19727 8288 8799; CX 2304 8799 19479; CX 19724 8288 8287; CX 2303 8287 19475; CX 2365 8414 19722; CA 19722 19721 19720;
  CX 19720 8414 8413; CX 19719 8413 8923; CX 2429 8923 19471; CX 19471 8478 8987; CX 2494 8987 28132; CA 2494 8987 8542; CX 8923 8478 19469; CA 19470 19469 19468;
  CX 19468 8478 8477; CX 2428 8477 19466; CX 2493 8542 19218; CX 8859 8413 19717; CX 2364 8413 19718; CA 19718 19717 19716; CX 19716 8413 8412; CX 19715 8412 8922;
  CX 2428 8922 19467; CX 19467 8477 8986; CX 8922 8477 19465; CA 19466 19465 19464; CX 19464 8477 8476; CX 2427 8476 19462; CX 8986 8542 19217; CX 2493 8986 19219;
  CX 19219 8542 9050; CX 2558 9050 28133; CA 2558 9050 8606; CA 19218 19217 19216; CX 19216 8542 8541; CX 2492 8541 19214; CX 2557 8606 18966; CX 2363 8412 19714;
  CX 8858 8412 19713; CA 19714 19713 19712; CX 19712 8412 8411; CX 2362 8411 19710; CX 19711 8411 8921; CX 2427 8921 19463; CX 19463 8476 8985; CX 8921 8476 19461;
  CA 19462 19461 19460; CX 19460 8476 8475; CX 2426 8475 19458; CX 8985 8541 19213; CX 2492 8985 19215; CX 19215 8541 9049; CA 19214 19213 19212; CX 19212 8541 8540;
  CX 2491 8540 19210; CX 2557 9049 18967; CX 18967 8606 9113; CX 2622 9113 28134; CA 2622 9113 8670; CX 9049 8606 18965; CA 18966 18965 18964; CX 18964 8606 8605;
  CX 2556 8605 18962; CX 2621 8670 18714; CX 2361 8856 19707; CX 8857 8411 19709; CA 19710 19709 19708; CX 19708 8411 8410; CX 2361 8410 19706; CX 8856 8410 19705;
  CA 19706 19705 19704; CX 19704 8410 8409; CX 2360 8409 19702; CX 8855 8409 19701; CA 19702 19701 19700; CX 19707 8410 8920; CX 2426 8920 19459; CX 19459 8475 8984;
  CX 8920 8475 19457; CA 19458 19457 19456; CX 19456 8475 8474; CX 2425 8474 19454; CX 8984 8540 19209; CX 2491 8984 19211; CX 19211 8540 9048; CA 19210 19209 19208;
  CX 19208 8540 8539; CX 2490 8539 19206; CX 2556 9048 18963; CX 18963 8605 9112; CX 9048 8605 18961; CA 18962 18961 18960; CX 18960 8605 8604; CX 2555 8604 18958;
  CX 9112 8670 18713; CA 18714 18713 18712; CX 2621 9112 18715; CX 18715 8670 9176; CX 2686 9176 28135; CA 2686 9176 8734; CX 18712 8670 8669; CX 2620 8669 18710;
  CX 2685 8734 18462; CX 19700 8409 8408; CX 2359 8408 19698; CX 8854 8408 19697; CX 2360 8855 19703; CX 19703 8409 8919; CX 8919 8474 19453; CA 19454 19453 19452].
(** Lines 16805-17204 of the file. *)
Definition mult2_64_42 : list cg := [
  CX 2425 8919 19455; CX 19455 8474 8983; CX 19452 8474 8473; CX 2424 8473 19450; CX 8983 8539 19205; CX 2490 8983 19207; CX 19207 8539 9047; CA 19206 19205 19204;
  CX 19204 8539 8538; CX 2489 8538 19202; CX 2555 9047 18959; CX 18959 8604 9111; CX 9047 8604 18957; CA 18958 18957 18956; CX 18956 8604 8603; CX 2554 8603 18954;
  CX 9111 8669 18709; CA 18710 18709 18708; CX 2620 9111 18711; CX 18711 8669 9175; CX 18708 8669 8668; CX 2619 8668 18706; CX 2685 9175 18463; CX 18463 8734 9239;
  CX 2750 9239 28136; CA 2750 9239 8798; CX 9175 8734 18461; CA 18462 18461 18460; CX 18460 8734 8733; CX 2684 8733 18458; CX 2749 8798 18210; CA 19698 19697 19696;
  CX 2359 8854 19699; CX 19699 8408 8918; CX 2424 8918 19451; CX 19451 8473 8982; CX 8918 8473 19449; CA 19450 19449 19448; CX 19448 8473 8472; CX 2423 8472 19446;
  CX 8982 8538 19201; CX 2489 8982 19203; CX 19203 8538 9046; CA 19202 19201 19200; CX 19200 8538 8537; CX 2488 8537 19198; CX 2554 9046 18955; CX 18955 8603 9110;
  CX 9046 8603 18953; CA 18954 18953 18952; CX 18952 8603 8602; CX 2553 8602 18950; CX 9110 8668 18705; CA 18706 18705 18704; CX 2619 9110 18707; CX 18707 8668 9174;
  CX 18704 8668 8667; CX 2618 8667 18702; CX 2684 9174 18459; CX 18459 8733 9238; CX 9174 8733 18457; CA 18458 18457 18456; CX 18456 8733 8732; CX 2683 8732 18454;
  CX 2749 9238 18211; CX 18211 8798 9302; CX 2814 9302 28137; CA 2814 9302 9366; CX 9238 8798 18209; CA 18210 18209 18208; CX 18208 8798 8797; CX 2748 8797 18206;
  CX 2813 9366 17958; CX 19696 8408 8407; CX 2358 8407 19694; CX 8853 8407 19693; CA 19694 19693 19692; CX 19695 8407 8917; CX 2423 8917 19447; CX 19447 8472 8981;
  CX 8917 8472 19445; CA 19446 19445 19444; CX 19444 8472 8471; CX 2422 8471 19442; CX 8981 8537 19197; CX 2488 8981 19199; CX 19199 8537 9045; CA 19198 19197 19196;
  CX 19196 8537 8536; CX 2487 8536 19194; CX 2553 9045 18951; CX 18951 8602 9109; CX 9045 8602 18949; CA 18950 18949 18948; CX 18948 8602 8601; CX 2552 8601 18946;
  CX 9109 8667 18701; CA 18702 18701 18700; CX 2618 9109 18703; CX 18703 8667 9173; CX 18700 8667 8666; CX 2617 8666 18698; CX 2683 9173 18455; CX 18455 8732 9237;
  CX 9173 8732 18453; CA 18454 18453 18452; CX 18452 8732 8731; CX 2682 8731 18450; CX 2748 9237 18207; CX 18207 8797 9301; CX 9237 8797 18205; CA 18206 18205 18204;
  CX 18204 8797 8796; CX 2747 8796 18202; CX 2813 9301 17959; CX 17959 9366 9877; CX 2878 9877 28138; CA 2878 9877 9430; CX 9301 9366 17957; CA 17958 17957 17956;
  CX 17956 9366 9365; CX 2812 9365 17954; CX 2877 9430 17706; CX 19692 8407 8406; CX 2357 8406 19690; CX 2357 8852 19691; CX 19691 8406 8916; CX 2422 8916 19443;
  CX 19443 8471 8980; CX 8916 8471 19441; CA 19442 19441 19440; CX 19440 8471 8470; CX 2421 8470 19438; CX 8980 8536 19193; CX 2487 8980 19195; CX 19195 8536 9044;
  CA 19194 19193 19192; CX 19192 8536 8535; CX 2486 8535 19190; CX 2552 9044 18947; CX 18947 8601 9108; CX 9044 8601 18945; CA 18946 18945 18944; CX 18944 8601 8600;
  CX 2551 8600 18942; CX 9108 8666 18697; CA 18698 18697 18696; CX 2617 9108 18699; CX 18699 8666 9172; CX 2682 9172 18451; CX 18696 8666 8665; CX 2616 8665 18694;
  CX 18451 8731 9236; CX 9172 8731 18449; CA 18450 18449 18448; CX 18448 8731 8730; CX 2681 8730 18446; CX 2747 9236 18203; CX 18203 8796 9300; CX 9236 8796 18201;
  CA 18202 18201 18200; CX 18200 8796 8795; CX 2746 8795 18198; CX 2812 9300 17955; CX 17955 9365 9876; CX 9300 9365 17953; CA 17954 17953 17952; CX 17952 9365 9364;
  CX 2811 9364 17950; CX 2877 9876 17707; CX 17707 9430 9940; CX 2942 9940 28139; CA 2942 9940 9494; CX 9876 9430 17705; CA 17706 17705 17704; CX 17704 9430 9429;
  CX 2876 9429 17702; CX 2941 9494 17454; CX 2356 8851 19687; CX 8852 8406 19689; CA 19690 19689 19688; CX 19688 8406 8405; CX 2356 8405 19686; CX 8851 8405 19685;
  CA 19686 19685 19684; CX 19684 8405 8404; CX 2355 8404 19682; CX 19683 8404 8914; CX 2420 8914 19435; CX 8850 8404 19681; CA 19682 19681 19680; CX 19680 8404 8403;
  CX 8849 8403 19677; CX 19679 8403 8913; CX 2419 8913 19431; CX 19687 8405 8915; CX 8915 8470 19437; CX 2421 8915 19439; CX 19439 8470 8979; CA 19438 19437 19436;
  CX 19436 8470 8469; CX 2420 8469 19434; CX 19435 8469 8978; CX 8914 8469 19433; CA 19434 19433 19432; CX 19432 8469 8468; CX 19431 8468 8977; CX 2419 8468 19430;
  CX 8913 8468 19429; CA 19430 19429 19428; CX 19428 8468 8467; CX 2418 8467 19426; CX 8979 8535 19189; CX 2486 8979 19191; CX 19191 8535 9043; CA 19190 19189 19188;
  CX 19188 8535 8534; CX 8978 8534 19185; CX 2485 8978 19187; CX 19187 8534 9042; CX 2485 8534 19186; CA 19186 19185 19184; CX 19184 8534 8533; CX 8977 8533 19181;
  CX 2484 8977 19183; CX 19183 8533 9041; CX 2484 8533 19182; CA 19182 19181 19180; CX 19180 8533 8532; CX 2483 8532 19178; CX 2551 9043 18943; CX 2550 9042 18939;
  CX 18943 8600 9107; CX 9043 8600 18941; CA 18942 18941 18940; CX 18940 8600 8599; CX 2549 9041 18935; CX 18939 8599 9106; CX 2550 8599 18938; CX 9042 8599 18937;
  CA 18938 18937 18936; CX 18936 8599 8598; CX 18935 8598 9105; CX 2614 9105 18687; CX 2549 8598 18934; CX 9041 8598 18933; CA 18934 18933 18932; CX 18932 8598 8597;
  CX 2548 8597 18930; CX 2616 9107 18695; CX 18695 8665 9171; CX 2615 9106 18691; CX 9107 8665 18693; CA 18694 18693 18692; CX 18692 8665 8664; CX 2615 8664 18690;
  CX 18691 8664 9170; CX 9106 8664 18689; CA 18690 18689 18688; CX 18688 8664 8663; CX 9105 8663 18685; CX 18687 8663 9169; CX 2614 8663 18686; CA 18686 18685 18684;
  CX 18684 8663 8662; CX 2613 8662 18682; CX 2681 9171 18447; CX 2680 9170 18443; CX 18447 8730 9235; CX 2679 9169 18439; CX 9171 8730 18445; CA 18446 18445 18444;
  CX 18444 8730 8729; CX 18443 8729 9234; CX 2680 8729 18442; CX 9170 8729 18441; CA 18442 18441 18440; CX 18440 8729 8728; CX 18439 8728 9233; CX 2679 8728 18438;
  CX 9169 8728 18437; CA 18438 18437 18436; CX 18436 8728 8727; CX 2678 8727 18434; CX 2746 9235 18199; CX 18199 8795 9299; CX 2811 9299 17951; CX 9235 8795 18197;
  CA 18198 18197 18196; CX 18196 8795 8794; CX 2745 9234 18195; CX 18195 8794 9298; CX 2810 9298 17947; CX 2745 8794 18194; CX 9234 8794 18193; CA 18194 18193 18192;
  CX 18192 8794 8793; CX 2744 9233 18191; CX 18191 8793 9297; CX 2744 8793 18190; CX 9233 8793 18189; CA 18190 18189 18188; CX 18188 8793 8792; CX 2743 8792 18186;
  CX 17951 9364 9875; CX 9299 9364 17949; CA 17950 17949 17948; CX 17948 9364 9363; CX 9298 9363 17945; CX 2810 9363 17946; CX 2809 9297 17943; CX 17947 9363 9874;
  CA 17946 17945 17944; CX 17944 9363 9362; CX 9297 9362 17941; CX 2809 9362 17942; CX 17943 9362 9873; CA 17942 17941 17940; CX 17940 9362 9361; CX 2808 9361 17938;
  CX 2876 9875 17703; CX 17703 9429 9939; CX 2875 9874 17699; CX 9875 9429 17701; CA 17702 17701 17700; CX 17700 9429 9428; CX 2875 9428 17698; CX 17699 9428 9938;
  CX 2874 9873 17695; CX 9874 9428 17697; CA 17698 17697 17696; CX 17696 9428 9427; CX 17695 9427 9937; CX 2939 9937 17447; CX 2874 9427 17694; CX 9873 9427 17693;
  CA 17694 17693 17692; CX 17692 9427 9426; CX 2873 9426 17690; CX 2941 9939 17455; CX 17455 9494 10003; CX 3006 10003 28140; CA 3006 10003 9558; CX 3005 9558 17202;
  CX 2940 9938 17451; CX 9939 9494 17453; CA 17454 17453 17452; CX 17452 9494 9493; CX 17451 9493 10002; CX 9938 9493 17449; CX 2940 9493 17450; CA 17450 17449 17448;
  CX 17448 9493 9492; CX 2939 9492 17446; CX 9937 9492 17445; CA 17446 17445 17444; CX 17447 9492 10001; CX 17444 9492 9491; CX 2938 9491 17442; CX 3005 10002 17203;
  CX 10002 9558 17201; CX 17203 9558 10066; CX 3070 10066 28141; CA 3070 10066 9622; CX 3004 10001 17199; CA 17202 17201 17200; CX 17200 9558 9557; CX 17199 9557 10065;
  CX 10001 9557 17197; CX 3004 9557 17198; CA 17198 17197 17196; CX 17196 9557 9556; CX 3003 9556 17194; CX 3069 10065 16951; CX 16951 9622 10129; CX 3134 10129 28142;
  CA 3134 10129 9686; CX 3133 9686 16698; CX 3069 9622 16950; CX 10065 9622 16949; CA 16950 16949 16948; CX 16948 9622 9621; CX 3068 9621 16946; CX 2354 8403 19678;
  CA 19678 19677 19676; CX 19676 8403 8402; CX 19675 8402 8912; CX 2418 8912 19427; CX 19427 8467 8976; CX 8912 8467 19425; CA 19426 19425 19424; CX 19424 8467 8466;
  CX 2417 8466 19422; CX 8848 8402 19673; CX 2353 8402 19674; CA 19674 19673 19672; CX 19672 8402 8401; CX 2352 8401 19670; CX 8847 8401 19669; CX 19671 8401 8911].
(** Lines 17205-17604 of the file. *)
Definition mult2_64_43 : list cg := [
  CX 2417 8911 19423; CX 19423 8466 8975; CX 8911 8466 19421; CA 19422 19421 19420; CX 19420 8466 8465; CX 2416 8465 19418; CX 8976 8532 19177; CX 2483 8976 19179;
  CX 19179 8532 9040; CA 19178 19177 19176; CX 19176 8532 8531; CX 8975 8531 19173; CX 2482 8975 19175; CX 19175 8531 9039; CX 2482 8531 19174; CA 19174 19173 19172;
  CX 19172 8531 8530; CX 2481 8530 19170; CA 19670 19669 19668; CX 19668 8401 8400; CX 19667 8400 8910; CX 2416 8910 19419; CX 19419 8465 8974; CX 8910 8465 19417;
  CA 19418 19417 19416; CX 19416 8465 8464; CX 2415 8464 19414; CX 8974 8530 19169; CX 2481 8974 19171; CX 19171 8530 9038; CA 19170 19169 19168; CX 19168 8530 8529;
  CX 2480 8529 19166; CX 2548 9040 18931; CX 2547 9039 18927; CX 18931 8597 9104; CX 9040 8597 18929; CA 18930 18929 18928; CX 18928 8597 8596; CX 9039 8596 18925;
  CX 18927 8596 9103; CX 2547 8596 18926; CA 18926 18925 18924; CX 18924 8596 8595; CX 2546 9038 18923; CX 18923 8595 9102; CX 2546 8595 18922; CX 9038 8595 18921;
  CA 18922 18921 18920; CX 18920 8595 8594; CX 2545 8594 18918; CX 2351 8400 19666; CX 9104 8662 18681; CA 18682 18681 18680; CX 18680 8662 8661; CX 2613 9104 18683;
  CX 18683 8662 9168; CX 2612 8661 18678; CX 9103 8661 18677; CA 18678 18677 18676; CX 18676 8661 8660; CX 2612 9103 18679; CX 18679 8661 9167; CX 2611 8660 18674;
  CX 9102 8660 18673; CA 18674 18673 18672; CX 18672 8660 8659; CX 2611 9102 18675; CX 18675 8660 9166; CX 2610 8659 18670; CX 2678 9168 18435; CX 2677 9167 18431;
  CX 18435 8727 9232; CX 2676 9166 18427; CX 9168 8727 18433; CA 18434 18433 18432; CX 18432 8727 8726; CX 18431 8726 9231; CX 2677 8726 18430; CX 9167 8726 18429;
  CA 18430 18429 18428; CX 18428 8726 8725; CX 2676 8725 18426; CX 18427 8725 9230; CX 9166 8725 18425; CA 18426 18425 18424; CX 18424 8725 8724; CX 2675 8724 18422;
  CX 2743 9232 18187; CX 18187 8792 9296; CX 2742 9231 18183; CX 9232 8792 18185; CA 18186 18185 18184; CX 18184 8792 8791; CX 18183 8791 9295; CX 9231 8791 18181;
  CX 2742 8791 18182; CA 18182 18181 18180; CX 18180 8791 8790; CX 2741 9230 18179; CX 18179 8790 9294; CX 2741 8790 18178; CX 9230 8790 18177; CA 18178 18177 18176;
  CX 18176 8790 8789; CX 2740 8789 18174; CX 2808 9296 17939; CX 17939 9361 9872; CX 9296 9361 17937; CA 17938 17937 17936; CX 17936 9361 9360; CX 2807 9360 17934;
  CX 2807 9295 17935; CX 17935 9360 9871; CX 9295 9360 17933; CA 17934 17933 17932; CX 17932 9360 9359; CX 2806 9359 17930; CX 2806 9294 17931; CX 17931 9359 9870;
  CX 9294 9359 17929; CA 17930 17929 17928; CX 17928 9359 9358; CX 2805 9358 17926; CX 2873 9872 17691; CX 17691 9426 9936; CX 9936 9491 17441; CX 2872 9871 17687;
  CX 9872 9426 17689; CA 17690 17689 17688; CX 17688 9426 9425; CX 2872 9425 17686; CX 17687 9425 9935; CX 2937 9935 17439; CX 2871 9870 17683; CX 9871 9425 17685;
  CA 17686 17685 17684; CX 17684 9425 9424; CX 2871 9424 17682; CX 17683 9424 9934; CX 9870 9424 17681; CA 17682 17681 17680; CX 17680 9424 9423; CX 2870 9423 17678;
  CX 2938 9936 17443; CX 17443 9491 10000; CA 17442 17441 17440; CX 17440 9491 9490; CX 17439 9490 9999; CX 9935 9490 17437; CX 2937 9490 17438; CA 17438 17437 17436;
  CX 17436 9490 9489; CX 2936 9934 17435; CX 17435 9489 9998; CX 9934 9489 17433; CX 2936 9489 17434; CA 17434 17433 17432; CX 17432 9489 9488; CX 2935 9488 17430;
  CX 3003 10000 17195; CX 17195 9556 10064; CX 3001 9998 17187; CX 3002 9999 17191; CX 10000 9556 17193; CA 17194 17193 17192; CX 17192 9556 9555; CX 9999 9555 17189;
  CX 17191 9555 10063; CX 3002 9555 17190; CA 17190 17189 17188; CX 17188 9555 9554; CX 17187 9554 10062; CX 3066 10062 16939; CX 3001 9554 17186; CX 9998 9554 17185;
  CA 17186 17185 17184; CX 17184 9554 9553; CX 3000 9553 17182; CX 3068 10064 16947; CX 16947 9621 10128; CX 3133 10128 16699; CX 16699 9686 10192; CX 3198 10192 28143;
  CA 3198 10192 9750; CX 10128 9686 16697; CA 16698 16697 16696; CX 16696 9686 9685; CX 3132 9685 16694; CX 3197 9750 16446; CX 3067 10063 16943; CX 10064 9621 16945;
  CA 16946 16945 16944; CX 16944 9621 9620; CX 10063 9620 16941; CX 16943 9620 10127; CX 3132 10127 16695; CX 16695 9685 10191; CX 3197 10191 16447; CX 10191 9750 16445;
  CX 10127 9685 16693; CA 16694 16693 16692; CX 16692 9685 9684; CX 3131 9684 16690; CX 16447 9750 10255; CX 3262 10255 28144; CA 3262 10255 9814; CX 3261 9814 16194;
  CA 16446 16445 16444; CX 16444 9750 9749; CX 3196 9749 16442; CX 3067 9620 16942; CA 16942 16941 16940; CX 16940 9620 9619; CX 16939 9619 10126; CX 3131 10126 16691;
  CX 16691 9684 10190; CX 3196 10190 16443; CX 16443 9749 10254; CX 3261 10254 16195; CX 16195 9814 10318; CX 10254 9814 16193; CA 16194 16193 16192; CX 16192 9814 9813;
  CX 3260 9813 16190; CX 3326 10318 28145; CA 3326 10318 10382; CX 3325 10382 15942; CX 10190 9749 16441; CA 16442 16441 16440; CX 16440 9749 9748; CX 10126 9684 16689;
  CA 16690 16689 16688; CX 16688 9684 9683; CX 3130 9683 16686; CX 3066 9619 16938; CX 3195 9748 16438; CX 10062 9619 16937; CA 16938 16937 16936; CX 16936 9619 9618;
  CX 3065 9618 16934; CX 2350 8845 19663; CX 8846 8400 19665; CA 19666 19665 19664; CX 19664 8400 8399; CX 2350 8399 19662; CX 8845 8399 19661; CA 19662 19661 19660;
  CX 19660 8399 8398; CX 19659 8398 8908; CX 2414 8908 19411; CX 2349 8398 19658; CX 8844 8398 19657; CA 19658 19657 19656; CX 19656 8398 8397; CX 19655 8397 8907;
  CX 2413 8907 19407; CX 2348 8397 19654; CX 8843 8397 19653; CA 19654 19653 19652; CX 19652 8397 8396; CX 19651 8396 8906; CX 2412 8906 19403; CX 8842 8396 19649;
  CX 2347 8396 19650; CA 19650 19649 19648; CX 19648 8396 8395; CX 8841 8395 19645; CX 19647 8395 8905; CX 2411 8905 19399; CX 19663 8399 8909; CX 2415 8909 19415;
  CX 19415 8464 8973; CX 8909 8464 19413; CA 19414 19413 19412; CX 19412 8464 8463; CX 19411 8463 8972; CX 2414 8463 19410; CX 8908 8463 19409; CA 19410 19409 19408;
  CX 19408 8463 8462; CX 19407 8462 8971; CX 2413 8462 19406; CX 8907 8462 19405; CA 19406 19405 19404; CX 19404 8462 8461; CX 19403 8461 8970; CX 8906 8461 19401;
  CX 2412 8461 19402; CA 19402 19401 19400; CX 19400 8461 8460; CX 19399 8460 8969; CX 8905 8460 19397; CX 2411 8460 19398; CA 19398 19397 19396; CX 19396 8460 8459;
  CX 2410 8459 19394; CX 8973 8529 19165; CX 2480 8973 19167; CX 19167 8529 9037; CA 19166 19165 19164; CX 19164 8529 8528; CX 8972 8528 19161; CX 2479 8972 19163;
  CX 19163 8528 9036; CX 2479 8528 19162; CA 19162 19161 19160; CX 19160 8528 8527; CX 8971 8527 19157; CX 2478 8971 19159; CX 19159 8527 9035; CX 2478 8527 19158;
  CA 19158 19157 19156; CX 19156 8527 8526; CX 8970 8526 19153; CX 2477 8970 19155; CX 19155 8526 9034; CX 2477 8526 19154; CA 19154 19153 19152; CX 19152 8526 8525;
  CX 8969 8525 19149; CX 2476 8969 19151; CX 19151 8525 9033; CX 2476 8525 19150; CA 19150 19149 19148; CX 19148 8525 8524; CX 2475 8524 19146; CX 2545 9037 18919;
  CX 18919 8594 9101; CX 9037 8594 18917; CA 18918 18917 18916; CX 18916 8594 8593; CX 2544 9036 18915; CX 18915 8593 9100; CX 9036 8593 18913; CX 2544 8593 18914;
  CA 18914 18913 18912; CX 18912 8593 8592; CX 2543 9035 18911; CX 18911 8592 9099; CX 9035 8592 18909; CX 2543 8592 18910; CA 18910 18909 18908; CX 18908 8592 8591;
  CX 2542 9034 18907; CX 18907 8591 9098; CX 9034 8591 18905; CX 2542 8591 18906; CA 18906 18905 18904; CX 18904 8591 8590; CX 2541 9033 18903; CX 18903 8590 9097;
  CX 9033 8590 18901; CX 2541 8590 18902; CA 18902 18901 18900; CX 18900 8590 8589; CX 2540 8589 18898; CX 9101 8659 18669; CA 18670 18669 18668; CX 18668 8659 8658;
  CX 2610 9101 18671; CX 18671 8659 9165; CX 9165 8724 18421; CX 2609 8658 18666; CX 9100 8658 18665; CA 18666 18665 18664; CX 18664 8658 8657; CX 2608 8657 18662;
  CX 2609 9100 18667; CX 18667 8658 9164; CX 9099 8657 18661; CA 18662 18661 18660; CX 18660 8657 8656; CX 2607 8656 18658; CX 2608 9099 18663; CX 18663 8657 9163;
  CX 2607 9098 18659; CX 18659 8656 9162; CX 2606 9097 18655; CX 9098 8656 18657; CA 18658 18657 18656; CX 18656 8656 8655; CX 2606 8655 18654; CX 18655 8655 9161;
  CX 9097 8655 18653; CA 18654 18653 18652; CX 18652 8655 8654; CX 2605 8654 18650; CX 2675 9165 18423; CX 18423 8724 9229; CA 18422 18421 18420; CX 18420 8724 8723;
  CX 9164 8723 18417; CX 2674 9164 18419; CX 18419 8723 9228; CX 2674 8723 18418; CA 18418 18417 18416; CX 18416 8723 8722; CX 2673 9163 18415; CX 18415 8722 9227].
(** Lines 17605-18004 of the file. *)
Definition mult2_64_44 : list cg := [
  CX 2673 8722 18414; CX 2672 9162 18411; CX 9163 8722 18413; CA 18414 18413 18412; CX 18412 8722 8721; CX 2672 8721 18410; CX 18411 8721 9226; CX 2671 9161 18407;
  CX 9162 8721 18409; CA 18410 18409 18408; CX 18408 8721 8720; CX 2671 8720 18406; CX 18407 8720 9225; CX 9161 8720 18405; CA 18406 18405 18404; CX 18404 8720 8719;
  CX 2670 8719 18402; CX 2740 9229 18175; CX 18175 8789 9293; CX 2739 9228 18171; CX 9229 8789 18173; CA 18174 18173 18172; CX 18172 8789 8788; CX 18171 8788 9292;
  CX 2738 9227 18167; CX 2739 8788 18170; CX 9228 8788 18169; CA 18170 18169 18168; CX 18168 8788 8787; CX 18167 8787 9291; CX 2737 9226 18163; CX 2738 8787 18166;
  CX 9227 8787 18165; CA 18166 18165 18164; CX 18164 8787 8786; CX 18163 8786 9290; CX 2736 9225 18159; CX 2737 8786 18162; CX 9226 8786 18161; CA 18162 18161 18160;
  CX 18160 8786 8785; CX 18159 8785 9289; CX 2736 8785 18158; CX 9225 8785 18157; CA 18158 18157 18156; CX 18156 8785 8784; CX 2735 8784 18154; CX 2805 9293 17927;
  CX 17927 9358 9869; CX 9293 9358 17925; CA 17926 17925 17924; CX 17924 9358 9357; CX 2804 9357 17922; CX 2804 9292 17923; CX 17923 9357 9868; CX 9292 9357 17921;
  CA 17922 17921 17920; CX 17920 9357 9356; CX 2803 9356 17918; CX 2803 9291 17919; CX 17919 9356 9867; CX 9291 9356 17917; CA 17918 17917 17916; CX 17916 9356 9355;
  CX 2802 9355 17914; CX 2802 9290 17915; CX 17915 9355 9866; CX 9290 9355 17913; CA 17914 17913 17912; CX 17912 9355 9354; CX 2801 9354 17910; CX 2801 9289 17911;
  CX 17911 9354 9865; CX 9289 9354 17909; CA 17910 17909 17908; CX 17908 9354 9353; CX 2800 9353 17906; CX 2870 9869 17679; CX 17679 9423 9933; CX 2869 9868 17675;
  CX 9869 9423 17677; CA 17678 17677 17676; CX 17676 9423 9422; CX 2869 9422 17674; CX 17675 9422 9932; CX 2868 9867 17671; CX 9868 9422 17673; CA 17674 17673 17672;
  CX 17672 9422 9421; CX 2868 9421 17670; CX 17671 9421 9931; CX 2867 9866 17667; CX 9867 9421 17669; CA 17670 17669 17668; CX 17668 9421 9420; CX 2867 9420 17666;
  CX 17667 9420 9930; CX 2866 9865 17663; CX 9866 9420 17665; CA 17666 17665 17664; CX 17664 9420 9419; CX 2866 9419 17662; CX 17663 9419 9929; CX 9865 9419 17661;
  CA 17662 17661 17660; CX 17660 9419 9418; CX 2865 9418 17658; CX 2935 9933 17431; CX 17431 9488 9997; CX 2934 9932 17427; CX 9933 9488 17429; CA 17430 17429 17428;
  CX 17428 9488 9487; CX 2934 9487 17426; CX 17427 9487 9996; CX 2999 9996 17179; CX 9932 9487 17425; CA 17426 17425 17424; CX 17424 9487 9486; CX 2933 9486 17422;
  CX 2933 9931 17423; CX 17423 9486 9995; CX 9931 9486 17421; CA 17422 17421 17420; CX 17420 9486 9485; CX 2932 9485 17418; CX 2932 9930 17419; CX 17419 9485 9994;
  CX 2997 9994 17171; CX 9930 9485 17417; CA 17418 17417 17416; CX 17416 9485 9484; CX 2931 9484 17414; CX 2931 9929 17415; CX 17415 9484 9993; CX 9929 9484 17413;
  CA 17414 17413 17412; CX 17412 9484 9483; CX 2930 9483 17410; CX 3000 9997 17183; CX 17183 9553 10061; CX 3065 10061 16935; CX 10061 9618 16933; CX 9997 9553 17181;
  CA 17182 17181 17180; CX 17180 9553 9552; CX 17179 9552 10060; CX 9996 9552 17177; CX 2999 9552 17178; CA 17178 17177 17176; CX 17176 9552 9551; CX 9995 9551 17173;
  CX 2998 9551 17174; CA 17174 17173 17172; CX 17172 9551 9550; CX 17171 9550 10058; CX 2998 9995 17175; CX 17175 9551 10059; CX 9994 9550 17169; CX 2997 9550 17170;
  CA 17170 17169 17168; CX 17168 9550 9549; CX 9993 9549 17165; CX 2996 9993 17167; CX 17167 9549 10057; CX 2996 9549 17166; CA 17166 17165 17164; CX 17164 9549 9548;
  CX 2995 9548 17162; CX 16935 9618 10125; CX 3130 10125 16687; CX 16687 9683 10189; CX 3195 10189 16439; CX 16439 9748 10253; CX 3260 10253 16191; CX 10189 9748 16437;
  CX 10125 9683 16685; CA 16686 16685 16684; CX 16684 9683 9682; CX 3129 9682 16682; CX 16191 9813 10317; CX 3325 10317 15943; CX 15943 10382 10893; CX 10317 10382 15941;
  CA 15942 15941 15940; CX 15940 10382 10381; CX 3324 10381 15938; CX 3390 10893 28146; CA 3390 10893 10446; CX 3389 10446 15690; CX 10253 9813 16189; CA 16190 16189 16188;
  CX 16188 9813 9812; CX 3259 9812 16186; CA 16438 16437 16436; CX 16436 9748 9747; CX 3194 9747 16434; CA 16934 16933 16932; CX 16932 9618 9617; CX 3064 9617 16930;
  CX 10060 9617 16929; CX 3064 10060 16931; CX 16931 9617 10124; CX 3129 10124 16683; CX 16683 9682 10188; CX 10188 9747 16433; CA 16434 16433 16432; CX 16432 9747 9746;
  CX 10124 9682 16681; CA 16682 16681 16680; CX 16680 9682 9681; CX 3128 9681 16678; CX 3193 9746 16430; CX 3194 10188 16435; CX 16435 9747 10252; CX 10252 9812 16185;
  CX 3259 10252 16187; CX 16187 9812 10316; CX 3324 10316 15939; CX 15939 10381 10892; CX 10316 10381 15937; CA 15938 15937 15936; CX 15936 10381 10380; CX 3323 10380 15934;
  CX 3389 10892 15691; CX 15691 10446 10956; CX 10892 10446 15689; CA 15690 15689 15688; CX 15688 10446 10445; CX 3388 10445 15686; CX 3454 10956 28147; CA 3454 10956 10510;
  CX 3453 10510 15438; CA 16186 16185 16184; CX 16184 9812 9811; CX 3258 9811 16182; CA 16930 16929 16928; CX 16928 9617 9616; CX 10059 9616 16925; CX 3063 9616 16926;
  CA 16926 16925 16924; CX 16924 9616 9615; CX 3062 9615 16922; CX 3063 10059 16927; CX 16927 9616 10123; CX 3128 10123 16679; CX 16679 9681 10187; CX 10187 9746 16429;
  CX 3193 10187 16431; CX 16431 9746 10251; CX 3258 10251 16183; CX 16183 9811 10315; CX 3323 10315 15935; CX 15935 10380 10891; CX 10315 10380 15933; CA 15934 15933 15932;
  CX 15932 10380 10379; CX 3322 10379 15930; CX 3388 10891 15687; CX 15687 10445 10955; CX 10891 10445 15685; CA 15686 15685 15684; CX 15684 10445 10444; CX 3387 10444 15682;
  CX 3453 10955 15439; CX 15439 10510 11019; CX 10955 10510 15437; CA 15438 15437 15436; CX 15436 10510 10509; CX 3452 10509 15434; CX 3518 11019 28148; CA 3518 11019 10574;
  CX 3517 10574 15186; CA 16430 16429 16428; CX 16428 9746 9745; CX 3192 9745 16426; CX 10251 9811 16181; CA 16182 16181 16180; CX 16180 9811 9810; CX 3257 9810 16178;
  CX 10123 9681 16677; CA 16678 16677 16676; CX 16676 9681 9680; CX 3127 9680 16674; CX 10058 9615 16921; CA 16922 16921 16920; CX 16920 9615 9614; CX 10057 9614 16917;
  CX 3061 9614 16918; CA 16918 16917 16916; CX 3062 10058 16923; CX 16923 9615 10122; CX 3127 10122 16675; CX 16675 9680 10186; CX 10122 9680 16673; CA 16674 16673 16672;
  CX 16672 9680 9679; CX 3126 9679 16670; CX 3192 10186 16427; CX 16427 9745 10250; CX 10250 9810 16177; CA 16178 16177 16176; CX 3257 10250 16179; CX 16179 9810 10314;
  CX 3322 10314 15931; CX 15931 10379 10890; CX 10314 10379 15929; CA 15930 15929 15928; CX 15928 10379 10378; CX 3321 10378 15926; CX 3387 10890 15683; CX 15683 10444 10954;
  CX 10890 10444 15681; CA 15682 15681 15680; CX 15680 10444 10443; CX 3386 10443 15678; CX 3452 10954 15435; CX 15435 10509 11018; CX 10954 10509 15433; CA 15434 15433 15432;
  CX 15432 10509 10508; CX 3451 10508 15430; CX 3517 11018 15187; CX 15187 10574 11082; CX 11018 10574 15185; CA 15186 15185 15184; CX 15184 10574 10573; CX 3516 10573 15182;
  CX 3582 11082 28149; CA 3582 11082 10638; CX 3581 10638 14934; CX 16176 9810 9809; CX 3256 9809 16174; CX 10186 9745 16425; CA 16426 16425 16424; CX 16424 9745 9744;
  CX 3191 9744 16422; CX 3061 10057 16919; CX 16919 9614 10121; CX 3126 10121 16671; CX 16671 9679 10185; CX 10185 9744 16421; CA 16422 16421 16420; CX 3191 10185 16423;
  CX 16420 9744 9743; CX 10121 9679 16669; CA 16670 16669 16668; CX 16668 9679 9678; CX 3125 9678 16666; CX 3190 9743 16418; CX 16423 9744 10249; CX 3256 10249 16175;
  CX 16175 9809 10313; CX 3321 10313 15927; CX 15927 10378 10889; CX 10313 10378 15925; CA 15926 15925 15924; CX 15924 10378 10377; CX 3320 10377 15922; CX 10249 9809 16173;
  CX 3386 10889 15679; CX 15679 10443 10953; CX 10889 10443 15677; CA 15678 15677 15676; CX 15676 10443 10442; CX 3385 10442 15674; CX 3451 10953 15431; CX 15431 10508 11017;
  CX 10953 10508 15429; CA 15430 15429 15428; CX 15428 10508 10507; CX 3450 10507 15426; CX 3516 11017 15183; CX 15183 10573 11081; CX 11017 10573 15181; CA 15182 15181 15180;
  CX 15180 10573 10572; CX 3515 10572 15178; CX 3581 11081 14935; CX 14935 10638 11145; CX 11081 10638 14933; CA 14934 14933 14932; CX 14932 10638 10637; CX 3580 10637 14930;
  CA 16174 16173 16172; CX 16172 9809 9808; CX 3646 11145 28150; CA 3646 11145 10702; CX 3645 10702 14682; CX 3255 9808 16170; CX 16916 9614 9613; CX 3060 9613 16914;
  CX 2346 8395 19646; CA 19646 19645 19644; CX 19644 8395 8394; CX 19643 8394 8904; CX 2410 8904 19395; CX 19395 8459 8968; CX 8904 8459 19393; CA 19394 19393 19392].
(** Lines 18005-18404 of the file. *)
Definition mult2_64_45 : list cg := [
  CX 19392 8459 8458; CX 2409 8458 19390; CX 8840 8394 19641; CX 2345 8394 19642; CA 19642 19641 19640; CX 19640 8394 8393; CX 19639 8393 8903; CX 2409 8903 19391;
  CX 19391 8458 8967; CX 8903 8458 19389; CA 19390 19389 19388; CX 19388 8458 8457; CX 2408 8457 19386; CX 2475 8968 19147; CX 19147 8524 9032; CX 8968 8524 19145;
  CA 19146 19145 19144; CX 19144 8524 8523; CX 2474 8523 19142; CX 8967 8523 19141; CX 2474 8967 19143; CX 19143 8523 9031; CA 19142 19141 19140; CX 19140 8523 8522;
  CX 2473 8522 19138; CX 8839 8393 19637; CX 2344 8393 19638; CA 19638 19637 19636; CX 19636 8393 8392; CX 19635 8392 8902; CX 2408 8902 19387; CX 19387 8457 8966;
  CX 8902 8457 19385; CA 19386 19385 19384; CX 19384 8457 8456; CX 2407 8456 19382; CX 8966 8522 19137; CX 2473 8966 19139; CX 19139 8522 9030; CA 19138 19137 19136;
  CX 19136 8522 8521; CX 2472 8521 19134; CX 2540 9032 18899; CX 18899 8589 9096; CX 9032 8589 18897; CA 18898 18897 18896; CX 18896 8589 8588; CX 2539 9031 18895;
  CX 18895 8588 9095; CX 9031 8588 18893; CX 2539 8588 18894; CA 18894 18893 18892; CX 18892 8588 8587; CX 2538 9030 18891; CX 18891 8587 9094; CX 9030 8587 18889;
  CX 2538 8587 18890; CA 18890 18889 18888; CX 18888 8587 8586; CX 2537 8586 18886; CX 8838 8392 19633; CX 2343 8392 19634; CA 19634 19633 19632; CX 19632 8392 8391;
  CX 2342 8391 19630; CX 8837 8391 19629; CX 19631 8391 8901; CX 2407 8901 19383; CX 19383 8456 8965; CX 8901 8456 19381; CA 19382 19381 19380; CX 19380 8456 8455;
  CX 2406 8455 19378; CX 8965 8521 19133; CX 2472 8965 19135; CX 19135 8521 9029; CX 9029 8586 18885; CA 19134 19133 19132; CX 19132 8521 8520; CX 2471 8520 19130;
  CX 2537 9029 18887; CX 18887 8586 9093; CA 18886 18885 18884; CX 18884 8586 8585; CX 2536 8585 18882; CX 2605 9096 18651; CX 18651 8654 9160; CX 2604 9095 18647;
  CA 19630 19629 19628; CX 9096 8654 18649; CA 18650 18649 18648; CX 18648 8654 8653; CX 18647 8653 9159; CX 19628 8391 8390; CX 19627 8390 8900; CX 2406 8900 19379;
  CX 19379 8455 8964; CX 8900 8455 19377; CA 19378 19377 19376; CX 19376 8455 8454; CX 2405 8454 19374; CX 8964 8520 19129; CX 2471 8964 19131; CX 19131 8520 9028;
  CA 19130 19129 19128; CX 19128 8520 8519; CX 2470 8519 19126; CX 9028 8585 18881; CX 2536 9028 18883; CX 18883 8585 9092; CA 18882 18881 18880; CX 18880 8585 8584;
  CX 2535 8584 18878; CX 2604 8653 18646; CX 2603 9094 18643; CX 2602 9093 18639; CX 9095 8653 18645; CA 18646 18645 18644; CX 18644 8653 8652; CX 18643 8652 9158;
  CX 2603 8652 18642; CX 2601 9092 18635; CX 9094 8652 18641; CA 18642 18641 18640; CX 18640 8652 8651; CX 18639 8651 9157; CX 2602 8651 18638; CX 9093 8651 18637;
  CA 18638 18637 18636; CX 18636 8651 8650; CX 18635 8650 9156; CX 2601 8650 18634; CX 9092 8650 18633; CA 18634 18633 18632; CX 18632 8650 8649; CX 2600 8649 18630;
  CX 2341 8390 19626; CX 2670 9160 18403; CX 18403 8719 9224; CX 2669 9159 18399; CX 9160 8719 18401; CA 18402 18401 18400; CX 18400 8719 8718; CX 2669 8718 18398;
  CX 18399 8718 9223; CX 2668 9158 18395; CX 9159 8718 18397; CA 18398 18397 18396; CX 18396 8718 8717; CX 2668 8717 18394; CX 18395 8717 9222; CX 2667 9157 18391;
  CX 9158 8717 18393; CA 18394 18393 18392; CX 18392 8717 8716; CX 2667 8716 18390; CX 18391 8716 9221; CX 2666 9156 18387; CX 9157 8716 18389; CA 18390 18389 18388;
  CX 18388 8716 8715; CX 2666 8715 18386; CX 18387 8715 9220; CX 9156 8715 18385; CA 18386 18385 18384; CX 18384 8715 8714; CX 2665 8714 18382; CX 2735 9224 18155;
  CX 18155 8784 9288; CX 2734 9223 18151; CX 9224 8784 18153; CA 18154 18153 18152; CX 18152 8784 8783; CX 18151 8783 9287; CX 2733 9222 18147; CX 2734 8783 18150;
  CX 9223 8783 18149; CA 18150 18149 18148; CX 18148 8783 8782; CX 18147 8782 9286; CX 2732 9221 18143; CX 2733 8782 18146; CX 9222 8782 18145; CA 18146 18145 18144;
  CX 18144 8782 8781; CX 18143 8781 9285; CX 2731 9220 18139; CX 2732 8781 18142; CX 9221 8781 18141; CA 18142 18141 18140; CX 18140 8781 8780; CX 18139 8780 9284;
  CX 2731 8780 18138; CX 9220 8780 18137; CA 18138 18137 18136; CX 18136 8780 8779; CX 2730 8779 18134; CX 2800 9288 17907; CX 17907 9353 9864; CX 9288 9353 17905;
  CA 17906 17905 17904; CX 17904 9353 9352; CX 2799 9352 17902; CX 2799 9287 17903; CX 17903 9352 9863; CX 9287 9352 17901; CA 17902 17901 17900; CX 17900 9352 9351;
  CX 2798 9351 17898; CX 2798 9286 17899; CX 17899 9351 9862; CX 9286 9351 17897; CA 17898 17897 17896; CX 17896 9351 9350; CX 2797 9350 17894; CX 2797 9285 17895;
  CX 17895 9350 9861; CX 9285 9350 17893; CA 17894 17893 17892; CX 17892 9350 9349; CX 2796 9349 17890; CX 2796 9284 17891; CX 17891 9349 9860; CX 9284 9349 17889;
  CA 17890 17889 17888; CX 17888 9349 9348; CX 2795 9348 17886; CX 2865 9864 17659; CX 17659 9418 9928; CX 2864 9863 17655; CX 9864 9418 17657; CA 17658 17657 17656;
  CX 17656 9418 9417; CX 2864 9417 17654; CX 17655 9417 9927; CX 2863 9862 17651; CX 9863 9417 17653; CA 17654 17653 17652; CX 17652 9417 9416; CX 2863 9416 17650;
  CX 17651 9416 9926; CX 2862 9861 17647; CX 9862 9416 17649; CA 17650 17649 17648; CX 17648 9416 9415; CX 2862 9415 17646; CX 17647 9415 9925; CX 2861 9860 17643;
  CX 9861 9415 17645; CA 17646 17645 17644; CX 17644 9415 9414; CX 2861 9414 17642; CX 17643 9414 9924; CX 9860 9414 17641; CA 17642 17641 17640; CX 17640 9414 9413;
  CX 2860 9413 17638; CX 2930 9928 17411; CX 17411 9483 9992; CX 9928 9483 17409; CA 17410 17409 17408; CX 17408 9483 9482; CX 9927 9482 17405; CX 2929 9482 17406;
  CA 17406 17405 17404; CX 17404 9482 9481; CX 2929 9927 17407; CX 17407 9482 9991; CX 2928 9481 17402; CX 9926 9481 17401; CA 17402 17401 17400; CX 2928 9926 17403;
  CX 17403 9481 9990; CX 17400 9481 9480; CX 2927 9480 17398; CX 9925 9480 17397; CA 17398 17397 17396; CX 2927 9925 17399; CX 17399 9480 9989; CX 17396 9480 9479;
  CX 2926 9479 17394; CX 2926 9924 17395; CX 17395 9479 9988; CX 9924 9479 17393; CA 17394 17393 17392; CX 17392 9479 9478; CX 2925 9478 17390; CX 9992 9548 17161;
  CX 2995 9992 17163; CX 17163 9548 10056; CX 10056 9613 16913; CA 16914 16913 16912; CX 16912 9613 9612; CX 3059 9612 16910; CX 3060 10056 16915; CX 16915 9613 10120;
  CX 3125 10120 16667; CX 16667 9678 10184; CX 3190 10184 16419; CX 16419 9743 10248; CX 10120 9678 16665; CA 16666 16665 16664; CX 16664 9678 9677; CX 3124 9677 16662;
  CX 10184 9743 16417; CA 16418 16417 16416; CX 16416 9743 9742; CX 3189 9742 16414; CX 3255 10248 16171; CX 16171 9808 10312; CX 3320 10312 15923; CX 15923 10377 10888;
  CX 3385 10888 15675; CX 15675 10442 10952; CX 10888 10442 15673; CA 15674 15673 15672; CX 15672 10442 10441; CX 3384 10441 15670; CX 3450 10952 15427; CX 15427 10507 11016;
  CX 10952 10507 15425; CA 15426 15425 15424; CX 15424 10507 10506; CX 3449 10506 15422; CX 3515 11016 15179; CX 15179 10572 11080; CX 11016 10572 15177; CA 15178 15177 15176;
  CX 15176 10572 10571; CX 3514 10571 15174; CX 3580 11080 14931; CX 14931 10637 11144; CX 11080 10637 14929; CA 14930 14929 14928; CX 14928 10637 10636; CX 3579 10636 14926;
  CX 3645 11144 14683; CX 14683 10702 11208; CX 11144 10702 14681; CA 14682 14681 14680; CX 14680 10702 10701; CX 3644 10701 14678; CX 3710 11208 28151; CA 3710 11208 10766;
  CX 3709 10766 14430; CX 10312 10377 15921; CA 15922 15921 15920; CX 15920 10377 10376; CX 3319 10376 15918; CA 17162 17161 17160; CX 17160 9548 9547; CX 2994 9991 17159;
  CX 17159 9547 10055; CX 3059 10055 16911; CX 2993 9990 17155; CX 2994 9547 17158; CX 9991 9547 17157; CA 17158 17157 17156; CX 17156 9547 9546; CX 17155 9546 10054;
  CX 3058 10054 16907; CX 2993 9546 17154; CX 2992 9989 17151; CX 9990 9546 17153; CA 17154 17153 17152; CX 17152 9546 9545; CX 17151 9545 10053; CX 2992 9545 17150;
  CX 3057 10053 16903; CX 9989 9545 17149; CA 17150 17149 17148; CX 17148 9545 9544; CX 2991 9988 17147; CX 17147 9544 10052; CX 3056 10052 16899; CX 2991 9544 17146;
  CX 9988 9544 17145; CA 17146 17145 17144; CX 17144 9544 9543; CX 2990 9543 17142; CX 10248 9808 16169; CA 16170 16169 16168; CX 16168 9808 9807; CX 3254 9807 16166;
  CX 16911 9612 10119; CX 3124 10119 16663; CX 16663 9677 10183; CX 3189 10183 16415; CX 10183 9742 16413; CX 10119 9677 16661; CA 16662 16661 16660; CX 16660 9677 9676;
  CX 3123 9676 16658; CA 16414 16413 16412; CX 16412 9742 9741; CX 3188 9741 16410; CX 16415 9742 10247; CX 3254 10247 16167; CX 16167 9807 10311; CX 3319 10311 15919].
(** Lines 18405-18804 of the file. *)
Definition mult2_64_46 : list cg := [
  CX 15919 10376 10887; CX 3384 10887 15671; CX 15671 10441 10951; CX 10887 10441 15669; CA 15670 15669 15668; CX 15668 10441 10440; CX 3383 10440 15666; CX 3449 10951 15423;
  CX 15423 10506 11015; CX 10951 10506 15421; CA 15422 15421 15420; CX 15420 10506 10505; CX 3448 10505 15418; CX 3514 11015 15175; CX 15175 10571 11079; CX 11015 10571 15173;
  CA 15174 15173 15172; CX 15172 10571 10570; CX 3513 10570 15170; CX 3579 11079 14927; CX 14927 10636 11143; CX 11079 10636 14925; CA 14926 14925 14924; CX 14924 10636 10635;
  CX 3578 10635 14922; CX 3644 11143 14679; CX 14679 10701 11207; CX 11143 10701 14677; CA 14678 14677 14676; CX 14676 10701 10700; CX 3643 10700 14674; CX 3709 11207 14431;
  CX 14431 10766 11271; CX 11207 10766 14429; CA 14430 14429 14428; CX 14428 10766 10765; CX 3708 10765 14426; CX 3774 11271 28152; CA 3774 11271 10830; CX 3773 10830 14178;
  CX 10311 10376 15917; CA 15918 15917 15916; CX 15916 10376 10375; CX 3318 10375 15914; CX 10247 9807 16165; CA 16166 16165 16164; CX 16164 9807 9806; CX 3253 9806 16162;
  CX 10055 9612 16909; CA 16910 16909 16908; CX 16908 9612 9611; CX 10054 9611 16905; CX 3058 9611 16906; CX 16907 9611 10118; CX 3123 10118 16659; CX 10118 9676 16657;
  CX 16659 9676 10182; CX 3188 10182 16411; CX 16411 9741 10246; CX 10246 9806 16161; CA 16162 16161 16160; CX 16160 9806 9805; CX 3253 10246 16163; CA 16658 16657 16656;
  CX 16656 9676 9675; CX 3122 9675 16654; CX 10182 9741 16409; CA 16410 16409 16408; CX 16408 9741 9740; CX 3187 9740 16406; CX 16163 9806 10310; CX 10310 10375 15913;
  CA 15914 15913 15912; CX 3318 10310 15915; CX 15915 10375 10886; CX 3383 10886 15667; CX 15667 10440 10950; CX 10886 10440 15665; CA 15666 15665 15664; CX 15664 10440 10439;
  CX 3382 10439 15662; CX 3448 10950 15419; CX 15419 10505 11014; CX 10950 10505 15417; CA 15418 15417 15416; CX 15416 10505 10504; CX 3447 10504 15414; CX 3513 11014 15171;
  CX 15171 10570 11078; CX 11014 10570 15169; CA 15170 15169 15168; CX 15168 10570 10569; CX 3512 10569 15166; CX 3578 11078 14923; CX 14923 10635 11142; CX 11078 10635 14921;
  CA 14922 14921 14920; CX 14920 10635 10634; CX 3577 10634 14918; CX 3643 11142 14675; CX 14675 10700 11206; CX 11142 10700 14673; CA 14674 14673 14672; CX 14672 10700 10699;
  CX 3642 10699 14670; CX 3708 11206 14427; CX 14427 10765 11270; CX 11206 10765 14425; CA 14426 14425 14424; CX 14424 10765 10764; CX 3707 10764 14422; CX 3773 11270 14179;
  CX 14179 10830 11334; CX 11270 10830 14177; CA 14178 14177 14176; CX 14176 10830 10829; CX 3772 10829 14174; CX 3838 11334 28153; CA 3838 11334 11398; CX 3837 11398 13926;
  CX 15912 10375 10374; CX 3317 10374 15910; CX 3252 9805 16158; CA 16906 16905 16904; CX 16904 9611 9610; CX 10053 9610 16901; CX 16903 9610 10117; CX 3122 10117 16655;
  CX 16655 9675 10181; CX 10117 9675 16653; CA 16654 16653 16652; CX 16652 9675 9674; CX 3121 9674 16650; CX 3187 10181 16407; CX 16407 9740 10245; CX 3252 10245 16159;
  CX 16159 9805 10309; CX 10309 10374 15909; CA 15910 15909 15908; CX 3317 10309 15911; CX 15911 10374 10885; CX 3382 10885 15663; CX 15663 10439 10949; CX 10885 10439 15661;
  CA 15662 15661 15660; CX 15660 10439 10438; CX 3381 10438 15658; CX 3447 10949 15415; CX 15415 10504 11013; CX 10949 10504 15413; CA 15414 15413 15412; CX 15412 10504 10503;
  CX 3446 10503 15410; CX 3512 11013 15167; CX 15167 10569 11077; CX 11013 10569 15165; CA 15166 15165 15164; CX 15164 10569 10568; CX 3511 10568 15162; CX 3577 11077 14919;
  CX 14919 10634 11141; CX 11077 10634 14917; CA 14918 14917 14916; CX 14916 10634 10633; CX 3576 10633 14914; CX 3642 11141 14671; CX 14671 10699 11205; CX 11141 10699 14669;
  CA 14670 14669 14668; CX 14668 10699 10698; CX 3641 10698 14666; CX 3707 11205 14423; CX 14423 10764 11269; CX 11205 10764 14421; CA 14422 14421 14420; CX 14420 10764 10763;
  CX 3706 10763 14418; CX 3772 11269 14175; CX 14175 10829 11333; CX 11269 10829 14173; CA 14174 14173 14172; CX 14172 10829 10828; CX 3771 10828 14170; CX 3837 11333 13927;
  CX 13927 11398 11844; CX 11333 11398 13925; CA 13926 13925 13924; CX 13924 11398 11397; CX 3836 11397 13922; CX 3902 11844 28154; CA 3902 11844 11462; CX 3901 11462 13674;
  CX 15908 10374 10373; CX 3316 10373 15906; CX 10245 9805 16157; CA 16158 16157 16156; CX 16156 9805 9804; CX 3251 9804 16154; CX 3057 9610 16902; CA 16902 16901 16900;
  CX 16900 9610 9609; CX 10052 9609 16897; CX 16899 9609 10116; CX 3056 9609 16898; CA 16898 16897 16896; CX 16896 9609 9608; CX 3121 10116 16651; CX 16651 9674 10180;
  CX 3186 10180 16403; CX 10116 9674 16649; CA 16650 16649 16648; CX 16648 9674 9673; CX 3120 9673 16646; CX 3055 9608 16894; CX 10181 9740 16405; CA 16406 16405 16404;
  CX 16404 9740 9739; CX 10180 9739 16401; CX 3186 9739 16402; CA 16402 16401 16400; CX 16400 9739 9738; CX 3185 9738 16398; CX 16403 9739 10244; CX 3251 10244 16155;
  CX 16155 9804 10308; CX 10244 9804 16153; CA 16154 16153 16152; CX 10308 10373 15905; CA 15906 15905 15904; CX 3316 10308 15907; CX 15907 10373 10884; CX 3381 10884 15659;
  CX 15659 10438 10948; CX 3446 10948 15411; CX 15411 10503 11012; CX 10948 10503 15409; CA 15410 15409 15408; CX 15408 10503 10502; CX 3445 10502 15406; CX 3511 11012 15163;
  CX 15163 10568 11076; CX 11012 10568 15161; CA 15162 15161 15160; CX 15160 10568 10567; CX 3510 10567 15158; CX 10884 10438 15657; CA 15658 15657 15656; CX 15656 10438 10437;
  CX 3576 11076 14915; CX 14915 10633 11140; CX 11076 10633 14913; CA 14914 14913 14912; CX 14912 10633 10632; CX 3575 10632 14910; CX 3380 10437 15654; CX 3641 11140 14667;
  CX 14667 10698 11204; CX 11140 10698 14665; CA 14666 14665 14664; CX 14664 10698 10697; CX 3640 10697 14662; CX 3706 11204 14419; CX 14419 10763 11268; CX 11204 10763 14417;
  CA 14418 14417 14416; CX 14416 10763 10762; CX 3705 10762 14414; CX 3771 11268 14171; CX 14171 10828 11332; CX 11268 10828 14169; CA 14170 14169 14168; CX 14168 10828 10827;
  CX 3770 10827 14166; CX 3836 11332 13923; CX 13923 11397 11843; CX 11332 11397 13921; CA 13922 13921 13920; CX 13920 11397 11396; CX 3835 11396 13918; CX 3901 11843 13675;
  CX 13675 11462 11907; CX 11843 11462 13673; CA 13674 13673 13672; CX 13672 11462 11461; CX 3900 11461 13670; CX 3966 11907 28155; CA 3966 11907 11526; CX 3965 11526 13422;
  CX 15904 10373 10372; CX 3315 10372 15902; CX 16152 9804 9803; CX 3250 9803 16150; CX 2340 8835 19623; CX 8836 8390 19625; CA 19626 19625 19624; CX 19624 8390 8389;
  CX 2340 8389 19622; CX 8835 8389 19621; CA 19622 19621 19620; CX 19620 8389 8388; CX 19619 8388 8898; CX 2404 8898 19371; CX 2339 8388 19618; CX 8834 8388 19617;
  CA 19618 19617 19616; CX 19616 8388 8387; CX 19615 8387 8897; CX 2403 8897 19367; CX 2338 8387 19614; CX 8833 8387 19613; CA 19614 19613 19612; CX 19612 8387 8386;
  CX 19611 8386 8896; CX 2402 8896 19363; CX 2337 8386 19610; CX 8832 8386 19609; CA 19610 19609 19608; CX 19608 8386 8385; CX 2336 8385 19606; CX 19607 8385 8895;
  CX 2401 8895 19359; CX 8831 8385 19605; CA 19606 19605 19604; CX 19604 8385 8384; CX 19603 8384 8894; CX 2400 8894 19355; CX 8830 8384 19601; CX 2335 8384 19602;
  CA 19602 19601 19600; CX 19600 8384 8383; CX 8829 8383 19597; CX 2334 8383 19598; CX 19599 8383 8893; CX 2399 8893 19351; CX 19623 8389 8899; CX 2405 8899 19375;
  CX 19375 8454 8963; CX 8899 8454 19373; CA 19374 19373 19372; CX 19372 8454 8453; CX 2404 8453 19370; CX 19371 8453 8962; CX 8898 8453 19369; CA 19370 19369 19368;
  CX 19368 8453 8452; CX 19367 8452 8961; CX 2403 8452 19366; CX 8897 8452 19365; CA 19366 19365 19364; CX 19364 8452 8451; CX 19363 8451 8960; CX 8896 8451 19361;
  CX 2402 8451 19362; CA 19362 19361 19360; CX 19360 8451 8450; CX 19359 8450 8959; CX 8895 8450 19357; CX 2401 8450 19358; CA 19358 19357 19356; CX 19356 8450 8449;
  CX 2400 8449 19354; CX 19355 8449 8958; CX 8894 8449 19353; CA 19354 19353 19352; CX 19352 8449 8448; CX 2399 8448 19350; CX 19351 8448 8957; CX 8893 8448 19349;
  CA 19350 19349 19348; CX 19348 8448 8447; CX 2398 8447 19346; CX 8963 8519 19125; CX 2470 8963 19127; CX 19127 8519 9027; CA 19126 19125 19124; CX 19124 8519 8518;
  CX 2469 8518 19122; CX 8962 8518 19121; CX 2469 8962 19123; CX 19123 8518 9026; CA 19122 19121 19120; CX 19120 8518 8517; CX 2468 8517 19118; CX 8961 8517 19117;
  CX 2468 8961 19119; CX 19119 8517 9025; CA 19118 19117 19116; CX 19116 8517 8516; CX 2467 8516 19114; CX 8960 8516 19113; CX 2467 8960 19115; CX 19115 8516 9024;
  CX 2466 8959 19111; CA 19114 19113 19112; CX 19112 8516 8515; CX 19111 8515 9023; CX 2465 8958 19107; CX 2466 8515 19110; CX 8959 8515 19109; CA 19110 19109 19108].
(** Lines 18805-19204 of the file. *)
Definition mult2_64_47 : list cg := [
  CX 19108 8515 8514; CX 19107 8514 9022; CX 2465 8514 19106; CX 8958 8514 19105; CA 19106 19105 19104; CX 19104 8514 8513; CX 2464 8957 19103; CX 19103 8513 9021;
  CX 2464 8513 19102; CX 8957 8513 19101; CA 19102 19101 19100; CX 19100 8513 8512; CX 2463 8512 19098; CX 9027 8584 18877; CA 18878 18877 18876; CX 2535 9027 18879;
  CX 18879 8584 9091; CX 18876 8584 8583; CX 2534 9026 18875; CX 18875 8583 9090; CX 2534 8583 18874; CX 9026 8583 18873; CA 18874 18873 18872; CX 18872 8583 8582;
  CX 2533 8582 18870; CX 9025 8582 18869; CA 18870 18869 18868; CX 2533 9025 18871; CX 18871 8582 9089; CX 18868 8582 8581; CX 2532 8581 18866; CX 9024 8581 18865;
  CA 18866 18865 18864; CX 2532 9024 18867; CX 18867 8581 9088; CX 18864 8581 8580; CX 2531 8580 18862; CX 9023 8580 18861; CA 18862 18861 18860; CX 2531 9023 18863;
  CX 18863 8580 9087; CX 18860 8580 8579; CX 2530 8579 18858; CX 9022 8579 18857; CA 18858 18857 18856; CX 2530 9022 18859; CX 18859 8579 9086; CX 18856 8579 8578;
  CX 2529 8578 18854; CX 9021 8578 18853; CA 18854 18853 18852; CX 2529 9021 18855; CX 18855 8578 9085; CX 18852 8578 8577; CX 2528 8577 18850; CX 2600 9091 18631;
  CX 18631 8649 9155; CX 2599 9090 18627; CX 2598 9089 18623; CX 9091 8649 18629; CA 18630 18629 18628; CX 18628 8649 8648; CX 18627 8648 9154; CX 2599 8648 18626;
  CX 2597 9088 18619; CX 9090 8648 18625; CA 18626 18625 18624; CX 18624 8648 8647; CX 18623 8647 9153; CX 2598 8647 18622; CX 2596 9087 18615; CX 9089 8647 18621;
  CA 18622 18621 18620; CX 18620 8647 8646; CX 18619 8646 9152; CX 2597 8646 18618; CX 2595 9086 18611; CX 9088 8646 18617; CA 18618 18617 18616; CX 18616 8646 8645;
  CX 18615 8645 9151; CX 2596 8645 18614; CX 2594 9085 18607; CX 9087 8645 18613; CA 18614 18613 18612; CX 18612 8645 8644; CX 18611 8644 9150; CX 2595 8644 18610;
  CX 9086 8644 18609; CA 18610 18609 18608; CX 18608 8644 8643; CX 18607 8643 9149; CX 2594 8643 18606; CX 9085 8643 18605; CA 18606 18605 18604; CX 18604 8643 8642;
  CX 2593 8642 18602; CX 2665 9155 18383; CX 18383 8714 9219; CX 2664 9154 18379; CX 9155 8714 18381; CA 18382 18381 18380; CX 18380 8714 8713; CX 2664 8713 18378;
  CX 18379 8713 9218; CX 2663 9153 18375; CX 9154 8713 18377; CA 18378 18377 18376; CX 18376 8713 8712; CX 2663 8712 18374; CX 18375 8712 9217; CX 2662 9152 18371;
  CX 9153 8712 18373; CA 18374 18373 18372; CX 18372 8712 8711; CX 2662 8711 18370; CX 18371 8711 9216; CX 2661 9151 18367; CX 9152 8711 18369; CA 18370 18369 18368;
  CX 18368 8711 8710; CX 2661 8710 18366; CX 18367 8710 9215; CX 2660 9150 18363; CX 9151 8710 18365; CA 18366 18365 18364; CX 18364 8710 8709; CX 2660 8709 18362;
  CX 18363 8709 9214; CX 2659 9149 18359; CX 9150 8709 18361; CA 18362 18361 18360; CX 18360 8709 8708; CX 2659 8708 18358; CX 18359 8708 9213; CX 9149 8708 18357;
  CA 18358 18357 18356; CX 18356 8708 8707; CX 2658 8707 18354; CX 2730 9219 18135; CX 18135 8779 9283; CX 2729 9218 18131; CX 9219 8779 18133; CA 18134 18133 18132;
  CX 18132 8779 8778; CX 18131 8778 9282; CX 2728 9217 18127; CX 2729 8778 18130; CX 9218 8778 18129; CA 18130 18129 18128; CX 18128 8778 8777; CX 18127 8777 9281;
  CX 2727 9216 18123; CX 2728 8777 18126; CX 9217 8777 18125; CA 18126 18125 18124; CX 18124 8777 8776; CX 18123 8776 9280; CX 2726 9215 18119; CX 2727 8776 18122;
  CX 9216 8776 18121; CA 18122 18121 18120; CX 18120 8776 8775; CX 18119 8775 9279; CX 2725 9214 18115; CX 2726 8775 18118; CX 9215 8775 18117; CA 18118 18117 18116;
  CX 18116 8775 8774; CX 18115 8774 9278; CX 2724 9213 18111; CX 2725 8774 18114; CX 9214 8774 18113; CA 18114 18113 18112; CX 18112 8774 8773; CX 18111 8773 9277;
  CX 2724 8773 18110; CX 9213 8773 18109; CA 18110 18109 18108; CX 18108 8773 8772; CX 2723 8772 18106; CX 2795 9283 17887; CX 17887 9348 9859; CX 9283 9348 17885;
  CA 17886 17885 17884; CX 17884 9348 9347; CX 2794 9347 17882; CX 2794 9282 17883; CX 17883 9347 9858; CX 9282 9347 17881; CA 17882 17881 17880; CX 17880 9347 9346;
  CX 2793 9346 17878; CX 2793 9281 17879; CX 17879 9346 9857; CX 9281 9346 17877; CA 17878 17877 17876; CX 17876 9346 9345; CX 2792 9345 17874; CX 2792 9280 17875;
  CX 17875 9345 9856; CX 9280 9345 17873; CA 17874 17873 17872; CX 17872 9345 9344; CX 2791 9344 17870; CX 2791 9279 17871; CX 17871 9344 9855; CX 9279 9344 17869;
  CA 17870 17869 17868; CX 17868 9344 9343; CX 2790 9343 17866; CX 2790 9278 17867; CX 17867 9343 9854; CX 9278 9343 17865; CA 17866 17865 17864; CX 17864 9343 9342;
  CX 2789 9342 17862; CX 2789 9277 17863; CX 17863 9342 9853; CX 9277 9342 17861; CA 17862 17861 17860; CX 17860 9342 9341; CX 2788 9341 17858; CX 2860 9859 17639;
  CX 17639 9413 9923; CX 2859 9858 17635; CX 9859 9413 17637; CA 17638 17637 17636; CX 17636 9413 9412; CX 2859 9412 17634; CX 17635 9412 9922; CX 2858 9857 17631;
  CX 9858 9412 17633; CA 17634 17633 17632; CX 17632 9412 9411; CX 2858 9411 17630; CX 17631 9411 9921; CX 2857 9856 17627; CX 9857 9411 17629; CA 17630 17629 17628;
  CX 17628 9411 9410; CX 2857 9410 17626; CX 17627 9410 9920; CX 2856 9855 17623; CX 9856 9410 17625; CA 17626 17625 17624; CX 17624 9410 9409; CX 2856 9409 17622;
  CX 17623 9409 9919; CX 2855 9854 17619; CX 9855 9409 17621; CA 17622 17621 17620; CX 17620 9409 9408; CX 2855 9408 17618; CX 17619 9408 9918; CX 2920 9918 17371;
  CX 2854 9853 17615; CX 9854 9408 17617; CA 17618 17617 17616; CX 17616 9408 9407; CX 2854 9407 17614; CX 17615 9407 9917; CX 2919 9917 17367; CX 9853 9407 17613;
  CA 17614 17613 17612; CX 17612 9407 9406; CX 2853 9406 17610; CX 2925 9923 17391; CX 17391 9478 9987; CX 9923 9478 17389; CA 17390 17389 17388; CX 17388 9478 9477;
  CX 2924 9477 17386; CX 2924 9922 17387; CX 17387 9477 9986; CX 9922 9477 17385; CA 17386 17385 17384; CX 17384 9477 9476; CX 9921 9476 17381; CX 2923 9476 17382;
  CX 2923 9921 17383; CX 17383 9476 9985; CA 17382 17381 17380; CX 17380 9476 9475; CX 9920 9475 17377; CX 2922 9475 17378; CX 2922 9920 17379; CX 17379 9475 9984;
  CX 2987 9984 17131; CA 17378 17377 17376; CX 17376 9475 9474; CX 9919 9474 17373; CX 2921 9474 17374; CX 2921 9919 17375; CX 17375 9474 9983; CX 2986 9983 17127;
  CA 17374 17373 17372; CX 17372 9474 9473; CX 17371 9473 9982; CX 2985 9982 17123; CX 9918 9473 17369; CX 2920 9473 17370; CA 17370 17369 17368; CX 17368 9473 9472;
  CX 17367 9472 9981; CX 9917 9472 17365; CX 2919 9472 17366; CA 17366 17365 17364; CX 17364 9472 9471; CX 2918 9471 17362; CX 2990 9987 17143; CX 17143 9543 10051;
  CX 3055 10051 16895; CX 16895 9608 10115; CX 3120 10115 16647; CX 16647 9673 10179; CX 3185 10179 16399; CX 16399 9738 10243; CX 10243 9803 16149; CX 10179 9738 16397;
  CA 16398 16397 16396; CX 16396 9738 9737; CX 3184 9737 16394; CX 10115 9673 16645; CA 16646 16645 16644; CX 16644 9673 9672; CX 3119 9672 16642; CX 3250 10243 16151;
  CX 16151 9803 10307; CA 16150 16149 16148; CX 16148 9803 9802; CX 3249 9802 16146; CX 3315 10307 15903; CX 15903 10372 10883; CX 3380 10883 15655; CX 15655 10437 10947;
  CX 10883 10437 15653; CA 15654 15653 15652; CX 15652 10437 10436; CX 3379 10436 15650; CX 3445 10947 15407; CX 15407 10502 11011; CX 3510 11011 15159; CX 15159 10567 11075;
  CX 11011 10567 15157; CA 15158 15157 15156; CX 15156 10567 10566; CX 3509 10566 15154; CX 3575 11075 14911; CX 14911 10632 11139; CX 11075 10632 14909; CA 14910 14909 14908;
  CX 14908 10632 10631; CX 3574 10631 14906; CX 3640 11139 14663; CX 14663 10697 11203; CX 11139 10697 14661; CA 14662 14661 14660; CX 14660 10697 10696; CX 3639 10696 14658;
  CX 3705 11203 14415; CX 14415 10762 11267; CX 11203 10762 14413; CA 14414 14413 14412; CX 14412 10762 10761; CX 3704 10761 14410; CX 3770 11267 14167; CX 14167 10827 11331;
  CX 11267 10827 14165; CA 14166 14165 14164; CX 14164 10827 10826; CX 3769 10826 14162; CX 3835 11331 13919; CX 13919 11396 11842; CX 11331 11396 13917; CA 13918 13917 13916;
  CX 13916 11396 11395; CX 3834 11395 13914; CX 3900 11842 13671; CX 13671 11461 11906; CX 11842 11461 13669; CA 13670 13669 13668; CX 13668 11461 11460; CX 3899 11460 13666;
  CX 3965 11906 13423; CX 13423 11526 11970; CX 11906 11526 13421; CA 13422 13421 13420; CX 13420 11526 11525; CX 3964 11525 13418; CX 4030 11970 28156; CA 4030 11970 11590;
  CX 4029 11590 13170; CX 10947 10502 15405; CA 15406 15405 15404; CX 15404 10502 10501; CX 3444 10501 15402; CX 10307 10372 15901; CA 15902 15901 15900; CX 15900 10372 10371].
(** Lines 19205-19604 of the file. *)
Definition mult2_64_48 : list cg := [
  CX 3314 10371 15898; CX 2989 9986 17139; CX 9987 9543 17141; CA 17142 17141 17140; CX 17140 9543 9542; CX 17139 9542 10050; CX 3054 10050 16891; CX 2989 9542 17138;
  CX 9986 9542 17137; CA 17138 17137 17136; CX 17136 9542 9541; CX 2988 9985 17135; CX 17135 9541 10049; CX 3053 10049 16887; CX 2988 9541 17134; CX 9985 9541 17133;
  CA 17134 17133 17132; CX 17132 9541 9540; CX 17131 9540 10048; CX 3052 10048 16883; CX 2987 9540 17130; CX 9984 9540 17129; CA 17130 17129 17128; CX 17128 9540 9539;
  CX 2986 9539 17126; CX 17127 9539 10047; CX 3051 10047 16879; CX 2984 9981 17119; CX 9983 9539 17125; CA 17126 17125 17124; CX 17124 9539 9538; CX 9982 9538 17121;
  CX 2985 9538 17122; CA 17122 17121 17120; CX 17120 9538 9537; CX 17123 9538 10046; CX 3050 10046 16875; CX 9981 9537 17117; CX 17119 9537 10045; CX 3049 10045 16871;
  CX 2984 9537 17118; CA 17118 17117 17116; CX 17116 9537 9536; CX 2983 9536 17114; CX 10051 9608 16893; CA 16894 16893 16892; CX 16892 9608 9607; CX 10050 9607 16889;
  CX 3054 9607 16890; CA 16890 16889 16888; CX 16888 9607 9606; CX 10049 9606 16885; CX 16887 9606 10113; CX 16891 9607 10114; CX 3053 9606 16886; CA 16886 16885 16884;
  CX 16884 9606 9605; CX 16883 9605 10112; CX 3052 9605 16882; CX 3119 10114 16643; CX 16643 9672 10178; CX 3184 10178 16395; CX 16395 9737 10242; CX 3249 10242 16147;
  CX 16147 9802 10306; CX 10242 9802 16145; CX 10178 9737 16393; CA 16394 16393 16392; CX 16392 9737 9736; CX 3183 9736 16390; CX 3118 10113 16639; CX 10114 9672 16641;
  CA 16642 16641 16640; CX 16640 9672 9671; CX 3118 9671 16638; CX 16639 9671 10177; CX 3183 10177 16391; CX 16391 9736 10241; CX 10177 9736 16389; CA 16390 16389 16388;
  CX 16388 9736 9735; CX 10113 9671 16637; CA 16638 16637 16636; CX 16636 9671 9670; CX 3117 10112 16635; CX 16635 9670 10176; CX 3182 10176 16387; CX 16387 9735 10240;
  CX 10176 9735 16385; CX 3247 10240 16139; CX 3117 9670 16634; CX 10112 9670 16633; CA 16634 16633 16632; CX 16632 9670 9669; CA 16146 16145 16144; CX 16144 9802 9801;
  CX 3116 9669 16630; CX 3314 10306 15899; CX 15899 10371 10882; CX 3379 10882 15651; CX 15651 10436 10946; CX 10882 10436 15649; CA 15650 15649 15648; CX 15648 10436 10435;
  CX 3378 10435 15646; CX 3444 10946 15403; CX 15403 10501 11010; CX 3509 11010 15155; CX 15155 10566 11074; CX 11010 10566 15153; CA 15154 15153 15152; CX 15152 10566 10565;
  CX 3508 10565 15150; CX 3574 11074 14907; CX 14907 10631 11138; CX 11074 10631 14905; CA 14906 14905 14904; CX 14904 10631 10630; CX 3573 10630 14902; CX 3639 11138 14659;
  CX 14659 10696 11202; CX 11138 10696 14657; CA 14658 14657 14656; CX 14656 10696 10695; CX 3638 10695 14654; CX 3704 11202 14411; CX 14411 10761 11266; CX 11202 10761 14409;
  CA 14410 14409 14408; CX 14408 10761 10760; CX 3703 10760 14406; CX 3769 11266 14163; CX 14163 10826 11330; CX 11266 10826 14161; CA 14162 14161 14160; CX 14160 10826 10825;
  CX 3768 10825 14158; CX 3834 11330 13915; CX 13915 11395 11841; CX 11330 11395 13913; CA 13914 13913 13912; CX 13912 11395 11394; CX 3833 11394 13910; CX 3899 11841 13667;
  CX 13667 11460 11905; CX 11841 11460 13665; CA 13666 13665 13664; CX 13664 11460 11459; CX 3898 11459 13662; CX 3964 11905 13419; CX 13419 11525 11969; CX 11905 11525 13417;
  CA 13418 13417 13416; CX 13416 11525 11524; CX 3963 11524 13414; CX 4029 11969 13171; CX 13171 11590 12033; CX 11969 11590 13169; CA 13170 13169 13168; CX 13168 11590 11589;
  CX 4028 11589 13166; CX 4094 12033 28157; CA 4094 12033 11654; CX 4093 11654 12918; CX 10946 10501 15401; CA 15402 15401 15400; CX 15400 10501 10500; CX 3443 10500 15398;
  CX 10306 10371 15897; CA 15898 15897 15896; CX 15896 10371 10370; CX 3313 10370 15894; CX 3248 10241 16143; CX 16143 9801 10305; CX 3313 10305 15895; CX 15895 10370 10881;
  CX 3378 10881 15647; CX 15647 10435 10945; CX 10881 10435 15645; CA 15646 15645 15644; CX 15644 10435 10434; CX 3377 10434 15642; CX 3443 10945 15399; CX 15399 10500 11009;
  CX 3508 11009 15151; CX 15151 10565 11073; CX 3573 11073 14903; CX 14903 10630 11137; CX 11073 10630 14901; CA 14902 14901 14900; CX 14900 10630 10629; CX 3572 10629 14898;
  CX 3638 11137 14655; CX 14655 10695 11201; CX 11137 10695 14653; CA 14654 14653 14652; CX 14652 10695 10694; CX 3637 10694 14650; CX 11009 10565 15149; CA 15150 15149 15148;
  CX 15148 10565 10564; CX 3703 11201 14407; CX 14407 10760 11265; CX 3507 10564 15146; CX 11201 10760 14405; CA 14406 14405 14404; CX 14404 10760 10759; CX 3702 10759 14402;
  CX 3768 11265 14159; CX 14159 10825 11329; CX 11265 10825 14157; CA 14158 14157 14156; CX 14156 10825 10824; CX 3767 10824 14154; CX 3833 11329 13911; CX 13911 11394 11840;
  CX 11329 11394 13909; CA 13910 13909 13908; CX 13908 11394 11393; CX 3832 11393 13906; CX 3898 11840 13663; CX 13663 11459 11904; CX 11840 11459 13661; CA 13662 13661 13660;
  CX 13660 11459 11458; CX 3897 11458 13658; CX 3963 11904 13415; CX 13415 11524 11968; CX 11904 11524 13413; CA 13414 13413 13412; CX 13412 11524 11523; CX 3962 11523 13410;
  CX 4028 11968 13167; CX 13167 11589 12032; CX 11968 11589 13165; CA 13166 13165 13164; CX 13164 11589 11588; CX 4027 11588 13162; CX 4093 12032 12919; CX 12919 11654 12096;
  CX 12032 11654 12917; CA 12918 12917 12916; CX 12916 11654 11653; CX 4092 11653 12914; CX 4158 12096 28158; CA 4158 12096 11718; CX 4157 11718 12666; CX 10945 10500 15397;
  CA 15398 15397 15396; CX 15396 10500 10499; CX 3442 10499 15394; CX 10305 10370 15893; CA 15894 15893 15892; CX 15892 10370 10369; CX 3312 10369 15890; CX 3248 9801 16142;
  CX 10241 9801 16141; CA 16142 16141 16140; CX 16140 9801 9800; CX 16139 9800 10304; CX 3247 9800 16138; CX 3312 10304 15891; CX 15891 10369 10880; CX 3377 10880 15643;
  CX 15643 10434 10944; CX 10880 10434 15641; CA 15642 15641 15640; CX 15640 10434 10433; CX 3376 10433 15638; CX 3442 10944 15395; CX 15395 10499 11008; CX 3507 11008 15147;
  CX 15147 10564 11072; CX 3572 11072 14899; CX 14899 10629 11136; CX 11072 10629 14897; CA 14898 14897 14896; CX 14896 10629 10628; CX 3571 10628 14894; CX 3637 11136 14651;
  CX 14651 10694 11200; CX 11136 10694 14649; CA 14650 14649 14648; CX 14648 10694 10693; CX 3636 10693 14646; CX 3702 11200 14403; CX 14403 10759 11264; CX 11200 10759 14401;
  CA 14402 14401 14400; CX 14400 10759 10758; CX 3701 10758 14398; CX 11008 10564 15145; CA 15146 15145 15144; CX 15144 10564 10563; CX 3506 10563 15142; CX 3767 11264 14155;
  CX 14155 10824 11328; CX 11264 10824 14153; CA 14154 14153 14152; CX 14152 10824 10823; CX 3766 10823 14150; CX 3832 11328 13907; CX 13907 11393 11839; CX 11328 11393 13905;
  CA 13906 13905 13904; CX 13904 11393 11392; CX 3831 11392 13902; CX 3897 11839 13659; CX 13659 11458 11903; CX 11839 11458 13657; CA 13658 13657 13656; CX 13656 11458 11457;
  CX 3896 11457 13654; CX 3962 11903 13411; CX 13411 11523 11967; CX 11903 11523 13409; CA 13410 13409 13408; CX 13408 11523 11522; CX 3961 11522 13406; CX 4027 11967 13163;
  CX 13163 11588 12031; CX 11967 11588 13161; CA 13162 13161 13160; CX 13160 11588 11587; CX 4026 11587 13158; CX 4092 12031 12915; CX 12915 11653 12095; CX 12031 11653 12913;
  CA 12914 12913 12912; CX 12912 11653 11652; CX 4091 11652 12910; CX 4157 12095 12667; CX 12667 11718 12159; CX 12095 11718 12665; CA 12666 12665 12664; CX 12664 11718 11717;
  CX 4156 11717 12662; CX 4222 12159 28159; CA 4222 12159 11781; CX 4221 11781 12414; CX 10944 10499 15393; CA 15394 15393 15392; CX 15392 10499 10498; CX 3441 10498 15390;
  CX 10304 10369 15889; CA 15890 15889 15888; CX 15888 10369 10368; CX 3311 10368 15886; CX 10240 9800 16137; CA 16138 16137 16136; CX 16136 9800 9799; CX 3246 9799 16134;
  CX 10048 9605 16881; CA 16882 16881 16880; CX 16880 9605 9604; CX 10047 9604 16877; CX 3051 9604 16878; CA 16878 16877 16876; CX 16876 9604 9603; CX 16875 9603 10110;
  CX 3050 9603 16874; CX 10046 9603 16873; CA 16874 16873 16872; CX 16872 9603 9602; CX 16871 9602 10109; CX 3049 9602 16870; CX 10045 9602 16869; CA 16870 16869 16868;
  CX 16868 9602 9601; CX 3048 9601 16866; CX 3115 10110 16627; CX 3114 10109 16623; CX 16879 9604 10111; CX 3116 10111 16631; CX 16631 9669 10175; CX 3181 10175 16383;
  CX 10111 9669 16629; CA 16630 16629 16628; CX 16628 9669 9668; CX 16627 9668 10174; CX 3180 10174 16379; CX 3115 9668 16626; CX 10110 9668 16625; CA 16626 16625 16624;
  CX 16624 9668 9667; CX 16623 9667 10173; CX 3179 10173 16375; CX 3114 9667 16622; CX 10109 9667 16621; CA 16622 16621 16620; CX 16620 9667 9666; CX 3113 9666 16618;
  CX 3182 9735 16386; CA 16386 16385 16384; CX 16384 9735 9734; CX 16383 9734 10239; CX 10239 9799 16133; CA 16134 16133 16132; CX 3181 9734 16382; CX 10175 9734 16381].
(** Lines 19605-20004 of the file. *)
Definition mult2_64_49 : list cg := [
  CA 16382 16381 16380; CX 16380 9734 9733; CX 16379 9733 10238; CX 3180 9733 16378; CX 10174 9733 16377; CA 16378 16377 16376; CX 16376 9733 9732; CX 16375 9732 10237;
  CX 10173 9732 16373; CX 3179 9732 16374; CA 16374 16373 16372; CX 16372 9732 9731; CX 3178 9731 16370; CX 3245 10238 16131; CX 16132 9799 9798; CX 16131 9798 10302;
  CX 3246 10239 16135; CX 3245 9798 16130; CX 10238 9798 16129; CA 16130 16129 16128; CX 16128 9798 9797; CX 10237 9797 16125; CX 3244 10237 16127; CX 16127 9797 10301;
  CX 3244 9797 16126; CA 16126 16125 16124; CX 16124 9797 9796; CX 3243 9796 16122; CX 3310 10302 15883; CX 3309 10301 15879; CX 16135 9799 10303; CX 3311 10303 15887;
  CX 15887 10368 10879; CX 3376 10879 15639; CX 15639 10433 10943; CX 10879 10433 15637; CA 15638 15637 15636; CX 15636 10433 10432; CX 3441 10943 15391; CX 15391 10498 11007;
  CX 3506 11007 15143; CX 15143 10563 11071; CX 3571 11071 14895; CX 14895 10628 11135; CX 11071 10628 14893; CA 14894 14893 14892; CX 14892 10628 10627; CX 3570 10627 14890;
  CX 3636 11135 14647; CX 14647 10693 11199; CX 11135 10693 14645; CA 14646 14645 14644; CX 14644 10693 10692; CX 3635 10692 14642; CX 3701 11199 14399; CX 14399 10758 11263;
  CX 11199 10758 14397; CA 14398 14397 14396; CX 14396 10758 10757; CX 3700 10757 14394; CX 3766 11263 14151; CX 14151 10823 11327; CX 11263 10823 14149; CA 14150 14149 14148;
  CX 14148 10823 10822; CX 3765 10822 14146; CX 11007 10563 15141; CA 15142 15141 15140; CX 15140 10563 10562; CX 3505 10562 15138; CX 3831 11327 13903; CX 13903 11392 11838;
  CX 11327 11392 13901; CA 13902 13901 13900; CX 13900 11392 11391; CX 3830 11391 13898; CX 3896 11838 13655; CX 13655 11457 11902; CX 11838 11457 13653; CA 13654 13653 13652;
  CX 13652 11457 11456; CX 3895 11456 13650; CX 3961 11902 13407; CX 13407 11522 11966; CX 11902 11522 13405; CA 13406 13405 13404; CX 13404 11522 11521; CX 3960 11521 13402;
  CX 4026 11966 13159; CX 13159 11587 12030; CX 11966 11587 13157; CA 13158 13157 13156; CX 13156 11587 11586; CX 4025 11586 13154; CX 4091 12030 12911; CX 12911 11652 12094;
  CX 12030 11652 12909; CA 12910 12909 12908; CX 12908 11652 11651; CX 4090 11651 12906; CX 4156 12094 12663; CX 12663 11717 12158; CX 12094 11717 12661; CA 12662 12661 12660;
  CX 12660 11717 11716; CX 4155 11716 12658; CX 4221 12158 12415; CX 12415 11781 28032; CX 12158 11781 12413; CA 12414 12413 12412; CX 12412 11781 11780; CX 4220 11780 12410;
  CX 10943 10498 15389; CA 15390 15389 15388; CX 15388 10498 10497; CX 3440 10497 15386; CX 10303 10368 15885; CA 15886 15885 15884; CX 15884 10368 10367; CX 15883 10367 10878;
  CX 3375 10878 15635; CX 3310 10367 15882; CX 10302 10367 15881; CA 15882 15881 15880; CX 15880 10367 10366; CX 15879 10366 10877; CX 3374 10877 15631; CX 3309 10366 15878;
  CX 10301 10366 15877; CA 15878 15877 15876; CX 15876 10366 10365; CX 3308 10365 15874; CX 15635 10432 10942; CX 3440 10942 15387; CX 15387 10497 11006; CX 3505 11006 15139;
  CX 15139 10562 11070; CX 11006 10562 15137; CA 15138 15137 15136; CX 15136 10562 10561; CX 3504 10561 15134; CX 3570 11070 14891; CX 14891 10627 11134; CX 3635 11134 14643;
  CX 14643 10692 11198; CX 11134 10692 14641; CA 14642 14641 14640; CX 14640 10692 10691; CX 3634 10691 14638; CX 3700 11198 14395; CX 14395 10757 11262; CX 11198 10757 14393;
  CA 14394 14393 14392; CX 14392 10757 10756; CX 3699 10756 14390; CX 3765 11262 14147; CX 14147 10822 11326; CX 11262 10822 14145; CA 14146 14145 14144; CX 14144 10822 10821;
  CX 3764 10821 14142; CX 3830 11326 13899; CX 13899 11391 11837; CX 11326 11391 13897; CA 13898 13897 13896; CX 13896 11391 11390; CX 3829 11390 13894; CX 3895 11837 13651;
  CX 13651 11456 11901; CX 11837 11456 13649; CA 13650 13649 13648; CX 13648 11456 11455; CX 3894 11455 13646; CX 3960 11901 13403; CX 13403 11521 11965; CX 11901 11521 13401;
  CA 13402 13401 13400; CX 13400 11521 11520; CX 3959 11520 13398; CX 4025 11965 13155; CX 13155 11586 12029; CX 11965 11586 13153; CA 13154 13153 13152; CX 13152 11586 11585;
  CX 4024 11585 13150; CX 4090 12029 12907; CX 12907 11651 12093; CX 12029 11651 12905; CA 12906 12905 12904; CX 12904 11651 11650; CX 4089 11650 12902; CX 4155 12093 12659;
  CX 12659 11716 12157; CX 12093 11716 12657; CA 12658 12657 12656; CX 12656 11716 11715; CX 4154 11715 12654; CX 4220 12157 12411; CX 12411 11780 28033; CX 12157 11780 12409;
  CA 12410 12409 12408; CX 12408 11780 11779; CX 4219 11779 12406; CX 11070 10627 14889; CA 14890 14889 14888; CX 14888 10627 10626; CX 3569 10626 14886; CX 10942 10497 15385;
  CA 15386 15385 15384; CX 15384 10497 10496; CX 3439 10496 15382; CX 3375 10432 15634; CX 10878 10432 15633; CA 15634 15633 15632; CX 15632 10432 10431; CX 10877 10431 15629;
  CX 3374 10431 15630; CA 15630 15629 15628; CX 15628 10431 10430; CX 3373 10430 15626; CX 15631 10431 10941; CX 3439 10941 15383; CX 15383 10496 11005; CX 3504 11005 15135;
  CX 15135 10561 11069; CX 11005 10561 15133; CA 15134 15133 15132; CX 15132 10561 10560; CX 3503 10560 15130; CX 10941 10496 15381; CA 15382 15381 15380; CX 15380 10496 10495;
  CX 3569 11069 14887; CX 3438 10495 15378; CX 14887 10626 11133; CX 3634 11133 14639; CX 14639 10691 11197; CX 11133 10691 14637; CA 14638 14637 14636; CX 14636 10691 10690;
  CX 3633 10690 14634; CX 3699 11197 14391; CX 14391 10756 11261; CX 11197 10756 14389; CA 14390 14389 14388; CX 14388 10756 10755; CX 3698 10755 14386; CX 3764 11261 14143;
  CX 14143 10821 11325; CX 11261 10821 14141; CA 14142 14141 14140; CX 14140 10821 10820; CX 3763 10820 14138; CX 3829 11325 13895; CX 13895 11390 11836; CX 11325 11390 13893;
  CA 13894 13893 13892; CX 13892 11390 11389; CX 3828 11389 13890; CX 3894 11836 13647; CX 13647 11455 11900; CX 11836 11455 13645; CA 13646 13645 13644; CX 13644 11455 11454;
  CX 3893 11454 13642; CX 3959 11900 13399; CX 13399 11520 11964; CX 11900 11520 13397; CA 13398 13397 13396; CX 13396 11520 11519; CX 3958 11519 13394; CX 4024 11964 13151;
  CX 13151 11585 12028; CX 11964 11585 13149; CA 13150 13149 13148; CX 13148 11585 11584; CX 4023 11584 13146; CX 4089 12028 12903; CX 12903 11650 12092; CX 12028 11650 12901;
  CA 12902 12901 12900; CX 12900 11650 11649; CX 4088 11649 12898; CX 4154 12092 12655; CX 12655 11715 12156; CX 12092 11715 12653; CA 12654 12653 12652; CX 12652 11715 11714;
  CX 4153 11714 12650; CX 4219 12156 12407; CX 12407 11779 28034; CX 12156 11779 12405; CA 12406 12405 12404; CX 12404 11779 11778; CX 4218 11778 12402; CX 11069 10626 14885;
  CA 14886 14885 14884; CX 14884 10626 10625; CX 3568 10625 14882; CA 19598 19597 19596; CX 19596 8383 8382; CX 8828 8382 19593; CX 2333 8382 19594; CA 19594 19593 19592;
  CX 19592 8382 8381; CX 19591 8381 8891; CX 2397 8891 19343; CX 8827 8381 19589; CX 2332 8381 19590; CA 19590 19589 19588; CX 19588 8381 8380; CX 19587 8380 8890;
  CX 2396 8890 19339; CX 8826 8380 19585; CX 2331 8380 19586; CA 19586 19585 19584; CX 19584 8380 8379; CX 19583 8379 8889; CX 2395 8889 19335; CX 8825 8379 19581;
  CX 2330 8379 19582; CA 19582 19581 19580; CX 19580 8379 8378; CX 19579 8378 8888; CX 2394 8888 19331; CX 8824 8378 19577; CX 2329 8378 19578; CA 19578 19577 19576;
  CX 19576 8378 8377; CX 2328 8377 19574; CX 8823 8377 19573; CX 19575 8377 8887; CX 2393 8887 19327; CA 19574 19573 19572; CX 19572 8377 8376; CX 19571 8376 8886;
  CX 2392 8886 19323; CX 2327 8376 19570; CX 19595 8382 8892; CX 2398 8892 19347; CX 19347 8447 8956; CX 8892 8447 19345; CA 19346 19345 19344; CX 19344 8447 8446;
  CX 19343 8446 8955; CX 8891 8446 19341; CX 2397 8446 19342; CA 19342 19341 19340; CX 19340 8446 8445; CX 19339 8445 8954; CX 8890 8445 19337; CX 2396 8445 19338;
  CA 19338 19337 19336; CX 19336 8445 8444; CX 2395 8444 19334; CX 19335 8444 8953; CX 8889 8444 19333; CA 19334 19333 19332; CX 19332 8444 8443; CX 19331 8443 8952;
  CX 2394 8443 19330; CX 8888 8443 19329; CA 19330 19329 19328; CX 19328 8443 8442; CX 2393 8442 19326; CX 19327 8442 8951; CX 8887 8442 19325; CA 19326 19325 19324;
  CX 19324 8442 8441; CX 19323 8441 8950; CX 2392 8441 19322; CX 8886 8441 19321; CA 19322 19321 19320; CX 19320 8441 8440; CX 2391 8440 19318; CX 2463 8956 19099;
  CX 19099 8512 9020; CX 8956 8512 19097; CA 19098 19097 19096; CX 19096 8512 8511; CX 2462 8955 19095; CX 2461 8954 19091; CX 19095 8511 9019; CX 2462 8511 19094;
  CX 8955 8511 19093; CA 19094 19093 19092; CX 19092 8511 8510; CX 2460 8953 19087; CX 19091 8510 9018; CX 2461 8510 19090; CX 8954 8510 19089; CA 19090 19089 19088;
  CX 19088 8510 8509; CX 2459 8952 19083; CX 19087 8509 9017; CX 2460 8509 19086; CX 8953 8509 19085; CA 19086 19085 19084; CX 19084 8509 8508; CX 2458 8951 19079].
(** Lines 20005-20404 of the file. *)
Definition mult2_64_50 : list cg := [
  CX 19083 8508 9016; CX 2459 8508 19082; CX 8952 8508 19081; CA 19082 19081 19080; CX 19080 8508 8507; CX 2457 8950 19075; CX 19079 8507 9015; CX 2458 8507 19078;
  CX 8951 8507 19077; CA 19078 19077 19076; CX 19076 8507 8506; CX 19075 8506 9014; CX 2457 8506 19074; CX 8950 8506 19073; CA 19074 19073 19072; CX 19072 8506 8505;
  CX 2456 8505 19070; CX 9020 8577 18849; CA 18850 18849 18848; CX 2528 9020 18851; CX 18851 8577 9084; CX 18848 8577 8576; CX 2527 8576 18846; CX 9019 8576 18845;
  CA 18846 18845 18844; CX 2527 9019 18847; CX 18847 8576 9083; CX 18844 8576 8575; CX 2526 8575 18842; CX 9018 8575 18841; CA 18842 18841 18840; CX 2526 9018 18843;
  CX 18843 8575 9082; CX 18840 8575 8574; CX 2525 8574 18838; CX 9017 8574 18837; CA 18838 18837 18836; CX 2525 9017 18839; CX 18839 8574 9081; CX 18836 8574 8573;
  CX 2524 8573 18834; CX 9016 8573 18833; CA 18834 18833 18832; CX 2524 9016 18835; CX 18835 8573 9080; CX 18832 8573 8572; CX 2523 8572 18830; CX 9015 8572 18829;
  CA 18830 18829 18828; CX 2523 9015 18831; CX 18831 8572 9079; CX 18828 8572 8571; CX 2522 8571 18826; CX 9014 8571 18825; CA 18826 18825 18824; CX 2522 9014 18827;
  CX 18827 8571 9078; CX 18824 8571 8570; CX 2521 8570 18822; CX 2593 9084 18603; CX 18603 8642 9148; CX 2592 9083 18599; CX 2591 9082 18595; CX 9084 8642 18601;
  CA 18602 18601 18600; CX 18600 8642 8641; CX 18599 8641 9147; CX 2592 8641 18598; CX 2590 9081 18591; CX 9083 8641 18597; CA 18598 18597 18596; CX 18596 8641 8640;
  CX 18595 8640 9146; CX 2591 8640 18594; CX 2589 9080 18587; CX 9082 8640 18593; CA 18594 18593 18592; CX 18592 8640 8639; CX 18591 8639 9145; CX 2590 8639 18590;
  CX 2588 9079 18583; CX 9081 8639 18589; CA 18590 18589 18588; CX 18588 8639 8638; CX 18587 8638 9144; CX 2589 8638 18586; CX 2587 9078 18579; CX 9080 8638 18585;
  CA 18586 18585 18584; CX 18584 8638 8637; CX 18583 8637 9143; CX 2588 8637 18582; CX 9079 8637 18581; CA 18582 18581 18580; CX 18580 8637 8636; CX 18579 8636 9142;
  CX 2587 8636 18578; CX 9078 8636 18577; CA 18578 18577 18576; CX 18576 8636 8635; CX 2586 8635 18574; CX 2658 9148 18355; CX 18355 8707 9212; CX 2657 9147 18351;
  CX 9148 8707 18353; CA 18354 18353 18352; CX 18352 8707 8706; CX 2657 8706 18350; CX 18351 8706 9211; CX 2656 9146 18347; CX 9147 8706 18349; CA 18350 18349 18348;
  CX 18348 8706 8705; CX 2656 8705 18346; CX 18347 8705 9210; CX 2655 9145 18343; CX 9146 8705 18345; CA 18346 18345 18344; CX 18344 8705 8704; CX 2655 8704 18342;
  CX 18343 8704 9209; CX 2654 9144 18339; CX 9145 8704 18341; CA 18342 18341 18340; CX 18340 8704 8703; CX 2654 8703 18338; CX 18339 8703 9208; CX 2653 9143 18335;
  CX 9144 8703 18337; CA 18338 18337 18336; CX 18336 8703 8702; CX 2653 8702 18334; CX 18335 8702 9207; CX 2652 9142 18331; CX 9143 8702 18333; CA 18334 18333 18332;
  CX 18332 8702 8701; CX 2652 8701 18330; CX 18331 8701 9206; CX 9142 8701 18329; CA 18330 18329 18328; CX 18328 8701 8700; CX 2651 8700 18326; CX 2723 9212 18107;
  CX 18107 8772 9276; CX 2722 9211 18103; CX 9212 8772 18105; CA 18106 18105 18104; CX 18104 8772 8771; CX 18103 8771 9275; CX 2721 9210 18099; CX 2722 8771 18102;
  CX 9211 8771 18101; CA 18102 18101 18100; CX 18100 8771 8770; CX 18099 8770 9274; CX 2720 9209 18095; CX 2721 8770 18098; CX 9210 8770 18097; CA 18098 18097 18096;
  CX 18096 8770 8769; CX 18095 8769 9273; CX 2719 9208 18091; CX 2720 8769 18094; CX 9209 8769 18093; CA 18094 18093 18092; CX 18092 8769 8768; CX 18091 8768 9272;
  CX 2718 9207 18087; CX 2719 8768 18090; CX 9208 8768 18089; CA 18090 18089 18088; CX 18088 8768 8767; CX 18087 8767 9271; CX 2717 9206 18083; CX 2718 8767 18086;
  CX 9207 8767 18085; CA 18086 18085 18084; CX 18084 8767 8766; CX 18083 8766 9270; CX 2717 8766 18082; CX 9206 8766 18081; CA 18082 18081 18080; CX 18080 8766 8765;
  CX 2716 8765 18078; CX 2788 9276 17859; CX 17859 9341 9852; CX 9276 9341 17857; CA 17858 17857 17856; CX 17856 9341 9340; CX 2787 9340 17854; CX 2787 9275 17855;
  CX 17855 9340 9851; CX 9275 9340 17853; CA 17854 17853 17852; CX 17852 9340 9339; CX 2786 9339 17850; CX 2786 9274 17851; CX 17851 9339 9850; CX 9274 9339 17849;
  CA 17850 17849 17848; CX 17848 9339 9338; CX 2785 9338 17846; CX 2785 9273 17847; CX 17847 9338 9849; CX 9273 9338 17845; CA 17846 17845 17844; CX 17844 9338 9337;
  CX 2784 9337 17842; CX 2784 9272 17843; CX 17843 9337 9848; CX 9272 9337 17841; CA 17842 17841 17840; CX 17840 9337 9336; CX 2783 9336 17838; CX 2783 9271 17839;
  CX 17839 9336 9847; CX 9271 9336 17837; CA 17838 17837 17836; CX 17836 9336 9335; CX 2782 9335 17834; CX 2782 9270 17835; CX 17835 9335 9846; CX 9270 9335 17833;
  CA 17834 17833 17832; CX 17832 9335 9334; CX 2781 9334 17830; CX 2853 9852 17611; CX 17611 9406 9916; CX 2852 9851 17607; CX 9852 9406 17609; CA 17610 17609 17608;
  CX 17608 9406 9405; CX 2852 9405 17606; CX 17607 9405 9915; CX 2851 9850 17603; CX 9851 9405 17605; CA 17606 17605 17604; CX 17604 9405 9404; CX 2851 9404 17602;
  CX 17603 9404 9914; CX 2850 9849 17599; CX 9850 9404 17601; CA 17602 17601 17600; CX 17600 9404 9403; CX 2850 9403 17598; CX 17599 9403 9913; CX 2849 9848 17595;
  CX 9849 9403 17597; CA 17598 17597 17596; CX 17596 9403 9402; CX 2849 9402 17594; CX 17595 9402 9912; CX 2848 9847 17591; CX 9848 9402 17593; CA 17594 17593 17592;
  CX 17592 9402 9401; CX 2848 9401 17590; CX 17591 9401 9911; CX 2847 9846 17587; CX 9847 9401 17589; CA 17590 17589 17588; CX 17588 9401 9400; CX 2847 9400 17586;
  CX 17587 9400 9910; CX 9846 9400 17585; CA 17586 17585 17584; CX 17584 9400 9399; CX 2846 9399 17582; CX 9916 9471 17361; CX 2918 9916 17363; CX 17363 9471 9980;
  CX 2983 9980 17115; CX 17115 9536 10044; CX 3048 10044 16867; CX 16867 9601 10108; CX 10044 9601 16865; CA 16866 16865 16864; CX 16864 9601 9600; CX 3047 9600 16862;
  CX 3113 10108 16619; CX 16619 9666 10172; CX 3178 10172 16371; CX 16371 9731 10236; CX 10172 9731 16369; CA 16370 16369 16368; CX 16368 9731 9730; CX 3177 9730 16366;
  CX 10236 9796 16121; CA 16122 16121 16120; CX 16120 9796 9795; CX 3242 9795 16118; CX 10108 9666 16617; CA 16618 16617 16616; CX 16616 9666 9665; CX 3112 9665 16614;
  CA 17362 17361 17360; CX 17360 9471 9470; CX 9915 9470 17357; CX 2917 9915 17359; CX 17359 9470 9979; CX 2917 9470 17358; CA 17358 17357 17356; CX 17356 9470 9469;
  CX 9914 9469 17353; CX 2916 9914 17355; CX 17355 9469 9978; CX 2916 9469 17354; CA 17354 17353 17352; CX 17352 9469 9468; CX 2914 9912 17347; CX 2915 9913 17351;
  CX 17351 9468 9977; CX 2980 9977 17103; CX 2915 9468 17350; CX 9913 9468 17349; CA 17350 17349 17348; CX 17348 9468 9467; CX 17347 9467 9976; CX 2979 9976 17099;
  CX 2913 9911 17343; CX 2914 9467 17346; CX 9912 9467 17345; CA 17346 17345 17344; CX 17344 9467 9466; CX 17343 9466 9975; CX 2978 9975 17095; CX 2912 9910 17339;
  CX 2913 9466 17342; CX 9911 9466 17341; CA 17342 17341 17340; CX 17340 9466 9465; CX 9910 9465 17337; CX 17339 9465 9974; CX 2912 9465 17338; CA 17338 17337 17336;
  CX 17336 9465 9464; CX 2911 9464 17334; CX 9980 9536 17113; CA 17114 17113 17112; CX 17112 9536 9535; CX 9979 9535 17109; CX 2982 9979 17111; CX 17111 9535 10043;
  CX 10043 9600 16861; CX 3047 10043 16863; CX 16863 9600 10107; CX 3112 10107 16615; CX 16615 9665 10171; CX 3177 10171 16367; CX 16367 9730 10235; CX 10235 9795 16117;
  CA 16118 16117 16116; CX 16116 9795 9794; CX 3241 9794 16114; CX 10171 9730 16365; CA 16366 16365 16364; CX 16364 9730 9729; CX 3176 9729 16362; CX 3242 10235 16119;
  CX 16119 9795 10299; CX 10107 9665 16613; CA 16614 16613 16612; CX 16612 9665 9664; CX 3111 9664 16610; CX 3307 10299 15871; CX 2982 9535 17110; CA 17110 17109 17108;
  CX 17108 9535 9534; CX 2981 9534 17106; CX 9978 9534 17105; CA 17106 17105 17104; CX 17104 9534 9533; CX 17103 9533 10041; CX 2981 9978 17107; CX 17107 9534 10042;
  CX 3046 10042 16859; CX 2980 9533 17102; CX 9977 9533 17101; CA 17102 17101 17100; CX 17100 9533 9532; CX 2979 9532 17098; CX 9976 9532 17097; CX 17099 9532 10040;
  CX 3044 10040 16851; CA 17098 17097 17096; CX 17096 9532 9531; CX 9975 9531 17093; CX 17095 9531 10039; CX 3043 10039 16847; CX 2978 9531 17094; CX 2977 9974 17091;
  CA 17094 17093 17092; CX 17092 9531 9530; CX 9974 9530 17089; CX 17091 9530 10038; CX 3042 10038 16843; CX 2977 9530 17090; CA 17090 17089 17088; CX 17088 9530 9529].
(** Lines 20405-20804 of the file. *)
Definition mult2_64_51 : list cg := [
  CX 2976 9529 17086; CX 3243 10236 16123; CX 16123 9796 10300; CX 10300 10365 15873; CA 15874 15873 15872; CX 3308 10300 15875; CX 15875 10365 10876; CX 10876 10430 15625;
  CX 3373 10876 15627; CX 15627 10430 10940; CA 15626 15625 15624; CX 15624 10430 10429; CX 3438 10940 15379; CX 15379 10495 11004; CX 3503 11004 15131; CX 15131 10560 11068;
  CX 11004 10560 15129; CA 15130 15129 15128; CX 15128 10560 10559; CX 3502 10559 15126; CX 3568 11068 14883; CX 10940 10495 15377; CA 15378 15377 15376; CX 15376 10495 10494;
  CX 3437 10494 15374; CX 14883 10625 11132; CX 3633 11132 14635; CX 14635 10690 11196; CX 3698 11196 14387; CX 14387 10755 11260; CX 11196 10755 14385; CA 14386 14385 14384;
  CX 14384 10755 10754; CX 3697 10754 14382; CX 3763 11260 14139; CX 14139 10820 11324; CX 11260 10820 14137; CA 14138 14137 14136; CX 14136 10820 10819; CX 3762 10819 14134;
  CX 3828 11324 13891; CX 13891 11389 11835; CX 11324 11389 13889; CA 13890 13889 13888; CX 13888 11389 11388; CX 3827 11388 13886; CX 3893 11835 13643; CX 13643 11454 11899;
  CX 11835 11454 13641; CA 13642 13641 13640; CX 13640 11454 11453; CX 3892 11453 13638; CX 3958 11899 13395; CX 13395 11519 11963; CX 11899 11519 13393; CA 13394 13393 13392;
  CX 13392 11519 11518; CX 3957 11518 13390; CX 4023 11963 13147; CX 13147 11584 12027; CX 11963 11584 13145; CA 13146 13145 13144; CX 13144 11584 11583; CX 4022 11583 13142;
  CX 4088 12027 12899; CX 12899 11649 12091; CX 12027 11649 12897; CA 12898 12897 12896; CX 12896 11649 11648; CX 4087 11648 12894; CX 4153 12091 12651; CX 12651 11714 12155;
  CX 12091 11714 12649; CA 12650 12649 12648; CX 12648 11714 11713; CX 4152 11713 12646; CX 4218 12155 12403; CX 12403 11778 28035; CX 12155 11778 12401; CA 12402 12401 12400;
  CX 12400 11778 11777; CX 4217 11777 12398; CX 11132 10690 14633; CA 14634 14633 14632; CX 14632 10690 10689; CX 3632 10689 14630; CX 11068 10625 14881; CA 14882 14881 14880;
  CX 14880 10625 10624; CX 15872 10365 10364; CX 15871 10364 10875; CX 10875 10429 15621; CX 3307 10364 15870; CX 10299 10364 15869; CA 15870 15869 15868; CX 15868 10364 10363;
  CX 3306 10363 15866; CX 3567 10624 14878; CX 3372 10429 15622; CA 15622 15621 15620; CX 3372 10875 15623; CX 15623 10429 10939; CX 3437 10939 15375; CX 15375 10494 11003;
  CX 3502 11003 15127; CX 15127 10559 11067; CX 11003 10559 15125; CA 15126 15125 15124; CX 15124 10559 10558; CX 3501 10558 15122; CX 11067 10624 14877; CX 10939 10494 15373;
  CA 15374 15373 15372; CX 15372 10494 10493; CX 3436 10493 15370; CX 3567 11067 14879; CX 14879 10624 11131; CX 3632 11131 14631; CX 14631 10689 11195; CX 3697 11195 14383;
  CX 14383 10754 11259; CX 3762 11259 14135; CX 14135 10819 11323; CX 11259 10819 14133; CA 14134 14133 14132; CX 14132 10819 10818; CX 3761 10818 14130; CX 3827 11323 13887;
  CX 13887 11388 11834; CX 11323 11388 13885; CA 13886 13885 13884; CX 13884 11388 11387; CX 3826 11387 13882; CX 3892 11834 13639; CX 13639 11453 11898; CX 11834 11453 13637;
  CA 13638 13637 13636; CX 13636 11453 11452; CX 3891 11452 13634; CX 3957 11898 13391; CX 13391 11518 11962; CX 11898 11518 13389; CA 13390 13389 13388; CX 13388 11518 11517;
  CX 3956 11517 13386; CX 4022 11962 13143; CX 13143 11583 12026; CX 11962 11583 13141; CA 13142 13141 13140; CX 13140 11583 11582; CX 4021 11582 13138; CX 4087 12026 12895;
  CX 12895 11648 12090; CX 12026 11648 12893; CA 12894 12893 12892; CX 12892 11648 11647; CX 4086 11647 12890; CX 4152 12090 12647; CX 12647 11713 12154; CX 12090 11713 12645;
  CA 12646 12645 12644; CX 12644 11713 11712; CX 4151 11712 12642; CX 11195 10754 14381; CA 14382 14381 14380; CX 14380 10754 10753; CX 4217 12154 12399; CX 12399 11777 28036;
  CX 12154 11777 12397; CA 12398 12397 12396; CX 12396 11777 11776; CX 4216 11776 12394; CX 3696 10753 14378; CX 11131 10689 14629; CA 14630 14629 14628; CX 14628 10689 10688;
  CX 3631 10688 14626; CA 14878 14877 14876; CX 14876 10624 10623; CX 3566 10623 14874; CA 16862 16861 16860; CX 16860 9600 9599; CX 3046 9599 16858; CX 16859 9599 10106;
  CX 10042 9599 16857; CA 16858 16857 16856; CX 16856 9599 9598; CX 3045 9598 16854; CX 10041 9598 16853; CA 16854 16853 16852; CX 16852 9598 9597; CX 16851 9597 10104;
  CX 3109 10104 16603; CX 3044 9597 16850; CX 10040 9597 16849; CA 16850 16849 16848; CX 16848 9597 9596; CX 16847 9596 10103; CX 10039 9596 16845; CX 3043 9596 16846;
  CA 16846 16845 16844; CX 16844 9596 9595; CX 16843 9595 10102; CX 10038 9595 16841; CX 3042 9595 16842; CA 16842 16841 16840; CX 16840 9595 9594; CX 3041 9594 16838;
  CX 3111 10106 16611; CX 16611 9664 10170; CX 3176 10170 16363; CX 16363 9729 10234; CX 3241 10234 16115; CX 16115 9794 10298; CX 10170 9729 16361; CA 16362 16361 16360;
  CX 16360 9729 9728; CX 3175 9728 16358; CX 10234 9794 16113; CA 16114 16113 16112; CX 16112 9794 9793; CX 10106 9664 16609; CA 16610 16609 16608; CX 16608 9664 9663;
  CX 10298 10363 15865; CA 15866 15865 15864; CX 3306 10298 15867; CX 15867 10363 10874; CX 3371 10874 15619; CX 15864 10363 10362; CX 3305 10362 15862; CX 3110 9663 16606;
  CX 3107 10102 16595; CX 3108 10103 16599; CX 3240 9793 16110; CX 3045 10041 16855; CX 16855 9598 10105; CX 10105 9663 16605; CX 3110 10105 16607; CX 16607 9663 10169;
  CX 3175 10169 16359; CX 16359 9728 10233; CX 10233 9793 16109; CX 10169 9728 16357; CA 16358 16357 16356; CX 16356 9728 9727; CX 3174 9727 16354; CX 3240 10233 16111;
  CX 16111 9793 10297; CA 16110 16109 16108; CX 16108 9793 9792; CX 3305 10297 15863; CX 15863 10362 10873; CX 3370 10873 15615; CA 16606 16605 16604; CX 16604 9663 9662;
  CX 10104 9662 16601; CX 16603 9662 10168; CX 3174 10168 16355; CX 16355 9727 10232; CX 3239 10232 16107; CX 16107 9792 10296; CX 10168 9727 16353; CA 16354 16353 16352;
  CX 16352 9727 9726; CX 3173 9726 16350; CX 3109 9662 16602; CA 16602 16601 16600; CX 16600 9662 9661; CX 3108 9661 16598; CX 10103 9661 16597; CX 16599 9661 10167;
  CX 3173 10167 16351; CX 16351 9726 10231; CX 10167 9726 16349; CA 16350 16349 16348; CX 16348 9726 9725; CX 3238 10231 16103; CX 3172 9725 16346; CA 16598 16597 16596;
  CX 16596 9661 9660; CX 16595 9660 10166; CX 3172 10166 16347; CX 16347 9725 10230; CX 3237 10230 16099; CX 10166 9725 16345; CA 16346 16345 16344; CX 16344 9725 9724;
  CX 3171 9724 16342; CX 3107 9660 16594; CX 10297 10362 15861; CA 15862 15861 15860; CX 15860 10362 10361; CX 3304 10361 15858; CX 10296 10361 15857; CA 15858 15857 15856;
  CX 15856 10361 10360; CX 3304 10296 15859; CX 15859 10361 10872; CX 3369 10872 15611; CX 3303 10360 15854; CX 10102 9660 16593; CA 16594 16593 16592; CX 16592 9660 9659;
  CX 3106 9659 16590; CX 10232 9792 16105; CX 3239 9792 16106; CA 16106 16105 16104; CX 16104 9792 9791; CX 16103 9791 10295; CX 3238 9791 16102; CX 10231 9791 16101;
  CA 16102 16101 16100; CX 16100 9791 9790; CX 10230 9790 16097; CX 3237 9790 16098; CA 16098 16097 16096; CX 16096 9790 9789; CX 3236 9789 16094; CX 3303 10295 15855;
  CX 15855 10360 10871; CX 3368 10871 15607; CX 10295 10360 15853; CA 15854 15853 15852; CX 15852 10360 10359; CX 3302 10359 15850; CX 16099 9790 10294; CX 3302 10294 15851;
  CX 15851 10359 10870; CX 3367 10870 15603; CX 10294 10359 15849; CA 15850 15849 15848; CX 15848 10359 10358; CX 3301 10358 15846; CX 15620 10429 10428; CX 15619 10428 10938;
  CX 10874 10428 15617; CX 3436 10938 15371; CX 15371 10493 11002; CX 3501 11002 15123; CX 15123 10558 11066; CX 11066 10623 14873; CX 3566 11066 14875; CA 14874 14873 14872;
  CX 14872 10623 10622; CX 3565 10622 14870; CX 11002 10558 15121; CA 15122 15121 15120; CX 15120 10558 10557; CX 14875 10623 11130; CX 3631 11130 14627; CX 14627 10688 11194;
  CX 3696 11194 14379; CX 14379 10753 11258; CX 3761 11258 14131; CX 14131 10818 11322; CX 11258 10818 14129; CA 14130 14129 14128; CX 14128 10818 10817; CX 3760 10817 14126;
  CX 3826 11322 13883; CX 13883 11387 11833; CX 11322 11387 13881; CA 13882 13881 13880; CX 13880 11387 11386; CX 3825 11386 13878; CX 3891 11833 13635; CX 13635 11452 11897;
  CX 11833 11452 13633; CA 13634 13633 13632; CX 13632 11452 11451; CX 3890 11451 13630; CX 3956 11897 13387; CX 13387 11517 11961; CX 11897 11517 13385; CA 13386 13385 13384;
  CX 13384 11517 11516; CX 3955 11516 13382; CX 4021 11961 13139; CX 13139 11582 12025; CX 11961 11582 13137; CA 13138 13137 13136; CX 13136 11582 11581; CX 4020 11581 13134;
  CX 4086 12025 12891; CX 12891 11647 12089; CX 12025 11647 12889; CA 12890 12889 12888; CX 12888 11647 11646; CX 4085 11646 12886; CX 4151 12089 12643; CX 12643 11712 12153;
  CX 12089 11712 12641; CA 12642 12641 12640; CX 12640 11712 11711; CX 4150 11711 12638; CX 4216 12153 12395; CX 12395 11776 28037; CX 12153 11776 12393; CA 12394 12393 12392].
(** Lines 20805-21204 of the file. *)
Definition mult2_64_52 : list cg := [
  CX 12392 11776 11775; CX 4215 11775 12390; CX 11194 10753 14377; CA 14378 14377 14376; CX 14376 10753 10752; CX 11130 10688 14625; CA 14626 14625 14624; CX 14624 10688 10687;
  CX 3630 10687 14622; CX 3695 10752 14374; CX 10938 10493 15369; CA 15370 15369 15368; CX 15368 10493 10492; CX 3435 10492 15366; CX 3500 10557 15118; CX 3371 10428 15618;
  CA 15618 15617 15616; CX 15616 10428 10427; CX 15615 10427 10937; CX 3370 10427 15614; CX 10873 10427 15613; CA 15614 15613 15612; CX 15612 10427 10426; CX 3369 10426 15610;
  CX 10872 10426 15609; CA 15610 15609 15608; CX 15611 10426 10936; CX 15608 10426 10425; CX 3368 10425 15606; CX 10871 10425 15605; CX 15607 10425 10935; CA 15606 15605 15604;
  CX 15604 10425 10424; CX 3367 10424 15602; CX 10870 10424 15601; CA 15602 15601 15600; CX 15600 10424 10423; CX 3366 10423 15598; CX 15603 10424 10934; CX 3435 10937 15367;
  CX 15367 10492 11001; CX 11001 10557 15117; CX 3500 11001 15119; CX 15119 10557 11065; CX 3565 11065 14871; CX 14871 10622 11129; CX 11065 10622 14869; CA 14870 14869 14868;
  CX 14868 10622 10621; CX 3564 10621 14866; CX 3630 11129 14623; CX 14623 10687 11193; CX 3695 11193 14375; CX 14375 10752 11257; CX 3760 11257 14127; CX 14127 10817 11321;
  CX 11257 10817 14125; CA 14126 14125 14124; CX 14124 10817 10816; CX 3759 10816 14122; CX 3825 11321 13879; CX 13879 11386 11832; CX 11321 11386 13877; CA 13878 13877 13876;
  CX 13876 11386 11385; CX 3824 11385 13874; CX 3890 11832 13631; CX 13631 11451 11896; CX 11832 11451 13629; CA 13630 13629 13628; CX 13628 11451 11450; CX 3889 11450 13626;
  CX 3955 11896 13383; CX 13383 11516 11960; CX 11896 11516 13381; CA 13382 13381 13380; CX 13380 11516 11515; CX 3954 11515 13378; CX 4020 11960 13135; CX 13135 11581 12024;
  CX 11960 11581 13133; CA 13134 13133 13132; CX 13132 11581 11580; CX 4019 11580 13130; CX 4085 12024 12887; CX 12887 11646 12088; CX 12024 11646 12885; CA 12886 12885 12884;
  CX 12884 11646 11645; CX 4084 11645 12882; CX 4150 12088 12639; CX 12639 11711 12152; CX 12088 11711 12637; CA 12638 12637 12636; CX 12636 11711 11710; CX 4149 11710 12634;
  CX 4215 12152 12391; CX 12391 11775 28038; CX 12152 11775 12389; CA 12390 12389 12388; CX 12388 11775 11774; CX 4214 11774 12386; CX 11129 10687 14621; CA 14622 14621 14620;
  CX 14620 10687 10686; CX 3629 10686 14618; CA 15118 15117 15116; CX 15116 10557 10556; CX 3499 10556 15114; CX 3434 10936 15363; CX 10937 10492 15365; CA 15366 15365 15364;
  CX 15364 10492 10491; CX 15363 10491 11000; CX 11000 10556 15113; CX 3499 11000 15115; CX 15115 10556 11064; CX 11064 10621 14865; CA 14866 14865 14864; CX 3564 11064 14867;
  CX 14867 10621 11128; CX 14864 10621 10620; CX 3629 11128 14619; CX 14619 10686 11192; CX 3694 11192 14371; CX 11128 10686 14617; CA 14618 14617 14616; CX 14616 10686 10685;
  CX 3628 10685 14614; CX 3563 10620 14862; CA 15114 15113 15112; CX 15112 10556 10555; CX 3498 10555 15110; CX 3434 10491 15362; CX 3433 10935 15359; CX 10936 10491 15361;
  CA 15362 15361 15360; CX 15360 10491 10490; CX 15359 10490 10999; CX 3498 10999 15111; CX 15111 10555 11063; CX 3563 11063 14863; CX 14863 10620 11127; CX 10999 10555 15109;
  CX 3628 11127 14615; CX 14615 10685 11191; CX 11127 10685 14613; CA 14614 14613 14612; CX 14612 10685 10684; CX 3627 10684 14610; CA 15110 15109 15108; CX 15108 10555 10554;
  CX 3497 10554 15106; CX 11063 10620 14861; CA 14862 14861 14860; CX 14860 10620 10619; CX 3562 10619 14858; CX 3433 10490 15358; CX 3432 10934 15355; CX 10935 10490 15357;
  CA 15358 15357 15356; CX 15356 10490 10489; CX 15355 10489 10998; CX 3497 10998 15107; CX 15107 10554 11062; CX 11062 10619 14857; CA 14858 14857 14856; CX 3562 11062 14859;
  CX 14859 10619 11126; CX 10998 10554 15105; CA 15106 15105 15104; CX 15104 10554 10553; CX 3496 10553 15102; CX 14856 10619 10618; CX 3561 10618 14854; CX 3627 11126 14611;
  CX 14611 10684 11190; CX 11126 10684 14609; CA 14610 14609 14608; CX 14608 10684 10683; CX 3626 10683 14606; CX 3692 11190 14363; CX 3432 10489 15354; CX 10934 10489 15353;
  CA 15354 15353 15352; CX 15352 10489 10488; CX 11193 10752 14373; CA 14374 14373 14372; CX 14372 10752 10751; CX 14371 10751 11256; CX 3759 11256 14123; CX 14123 10816 11320;
  CX 3824 11320 13875; CX 13875 11385 11831; CX 11320 11385 13873; CA 13874 13873 13872; CX 13872 11385 11384; CX 3823 11384 13870; CX 11256 10816 14121; CA 14122 14121 14120;
  CX 14120 10816 10815; CX 3889 11831 13627; CX 13627 11450 11895; CX 11831 11450 13625; CA 13626 13625 13624; CX 13624 11450 11449; CX 3888 11449 13622; CX 3758 10815 14118;
  CX 3954 11895 13379; CX 13379 11515 11959; CX 11895 11515 13377; CA 13378 13377 13376; CX 13376 11515 11514; CX 3953 11514 13374; CX 4019 11959 13131; CX 13131 11580 12023;
  CX 11959 11580 13129; CA 13130 13129 13128; CX 13128 11580 11579; CX 4018 11579 13126; CX 4084 12023 12883; CX 12883 11645 12087; CX 12023 11645 12881; CA 12882 12881 12880;
  CX 12880 11645 11644; CX 4083 11644 12878; CX 4149 12087 12635; CX 12635 11710 12151; CX 12087 11710 12633; CA 12634 12633 12632; CX 12632 11710 11709; CX 4148 11709 12630;
  CX 4214 12151 12387; CX 12387 11774 28039; CX 12151 11774 12385; CA 12386 12385 12384; CX 12384 11774 11773; CX 4213 11773 12382; CX 3694 10751 14370; CX 11192 10751 14369;
  CA 14370 14369 14368; CX 14368 10751 10750; CX 11191 10750 14365; CX 3431 10488 15350; CX 3693 11191 14367; CX 14367 10750 11255; CX 3758 11255 14119; CX 14119 10815 11319;
  CX 3823 11319 13871; CX 13871 11384 11830; CX 11319 11384 13869; CA 13870 13869 13868; CX 13868 11384 11383; CX 3822 11383 13866; CX 3888 11830 13623; CX 13623 11449 11894;
  CX 11830 11449 13621; CA 13622 13621 13620; CX 13620 11449 11448; CX 3887 11448 13618; CX 11255 10815 14117; CA 14118 14117 14116; CX 14116 10815 10814; CX 3953 11894 13375;
  CX 13375 11514 11958; CX 11894 11514 13373; CA 13374 13373 13372; CX 13372 11514 11513; CX 3952 11513 13370; CX 3757 10814 14114; CX 4018 11958 13127; CX 13127 11579 12022;
  CX 11958 11579 13125; CA 13126 13125 13124; CX 13124 11579 11578; CX 4017 11578 13122; CX 4083 12022 12879; CX 12879 11644 12086; CX 12022 11644 12877; CA 12878 12877 12876;
  CX 12876 11644 11643; CX 4082 11643 12874; CX 4148 12086 12631; CX 12631 11709 12150; CX 12086 11709 12629; CA 12630 12629 12628; CX 12628 11709 11708; CX 4147 11708 12626;
  CX 4213 12150 12383; CX 12383 11773 28040; CX 12150 11773 12381; CA 12382 12381 12380; CX 12380 11773 11772; CX 4212 11772 12378; CX 3693 10750 14366; CA 14366 14365 14364;
  CX 14364 10750 10749; CX 11190 10749 14361; CX 3692 10749 14362; CA 14362 14361 14360; CX 14360 10749 10748; CX 14363 10749 11254; CX 3757 11254 14115; CX 14115 10814 11318;
  CX 3822 11318 13867; CX 13867 11383 11829; CX 11318 11383 13865; CA 13866 13865 13864; CX 13864 11383 11382; CX 3821 11382 13862; CX 3887 11829 13619; CX 13619 11448 11893;
  CX 11829 11448 13617; CA 13618 13617 13616; CX 13616 11448 11447; CX 3886 11447 13614; CX 3952 11893 13371; CX 13371 11513 11957; CX 11893 11513 13369; CA 13370 13369 13368;
  CX 13368 11513 11512; CX 3951 11512 13366; CX 11254 10814 14113; CA 14114 14113 14112; CX 14112 10814 10813; CX 4017 11957 13123; CX 13123 11578 12021; CX 11957 11578 13121;
  CA 13122 13121 13120; CX 13120 11578 11577; CX 4016 11577 13118; CX 3756 10813 14110; CX 4082 12021 12875; CX 12875 11643 12085; CX 12021 11643 12873; CA 12874 12873 12872;
  CX 12872 11643 11642; CX 4081 11642 12870; CX 4147 12085 12627; CX 12627 11708 12149; CX 12085 11708 12625; CA 12626 12625 12624; CX 12624 11708 11707; CX 4146 11707 12622;
  CX 4212 12149 12379; CX 12379 11772 28041; CX 12149 11772 12377; CA 12378 12377 12376; CX 12376 11772 11771; CX 4211 11771 12374; CX 3691 10748 14358; CX 8822 8376 19569;
  CA 19570 19569 19568; CX 19568 8376 8375; CX 8821 8375 19565; CX 2326 8375 19566; CA 19566 19565 19564; CX 19564 8375 8374; CX 19563 8374 8884; CX 2325 8374 19562;
  CX 8820 8374 19561; CA 19562 19561 19560; CX 19560 8374 8373; CX 19559 8373 8883; CX 2324 8373 19558; CX 2390 8884 19315; CX 8819 8373 19557; CA 19558 19557 19556;
  CX 19556 8373 8372; CX 19555 8372 8882; CX 2389 8883 19311; CX 2388 8882 19307; CX 2323 8372 19554; CX 8818 8372 19553; CA 19554 19553 19552; CX 19552 8372 8371;
  CX 2322 8371 19550; CX 19551 8371 8881; CX 2387 8881 19303; CX 8817 8371 19549; CA 19550 19549 19548; CX 19548 8371 8370; CX 19547 8370 8880; CX 2386 8880 19299;
  CX 2321 8370 19546; CX 8816 8370 19545; CA 19546 19545 19544; CX 19544 8370 8369; CX 19543 8369 8879; CX 2385 8879 19295; CX 2320 8369 19542; CX 8815 8369 19541;
  CA 19542 19541 19540; CX 19540 8369 8368; CX 19539 8368 8878; CX 2384 8878 19291; CX 2319 8368 19538; CX 8814 8368 19537; CA 19538 19537 19536; CX 19536 8368 8367].
(** Lines 21205-21604 of the file. *)
Definition mult2_64_53 : list cg := [
  CX 19535 8367 8877; CX 2383 8877 19287; CX 2318 8367 19534; CX 8813 8367 19533; CA 19534 19533 19532; CX 19532 8367 8366; CX 19531 8366 8876; CX 2382 8876 19283;
  CX 2317 8366 19530; CX 8812 8366 19529; CA 19530 19529 19528; CX 19528 8366 8365; CX 2316 8365 19526; CX 19527 8365 8875; CX 2381 8875 19279; CX 8811 8365 19525;
  CA 19526 19525 19524; CX 19524 8365 8364; CX 19523 8364 8874; CX 2380 8874 19275; CX 2315 8364 19522; CX 8810 8364 19521; CA 19522 19521 19520; CX 19520 8364 8363;
  CX 19519 8363 8873; CX 2379 8873 19271; CX 2314 8363 19518; CX 8809 8363 19517; CA 19518 19517 19516; CX 19516 8363 8362; CX 8808 8362 19513; CX 19515 8362 8872;
  CX 2378 8872 19267; CX 2313 8362 19514; CA 19514 19513 19512; CX 19512 8362 8361; CX 19511 8361 8871; CX 2377 8871 19263; CX 8807 8361 19509; CX 2312 8361 19510;
  CA 19510 19509 19508; CX 19508 8361 8360; CX 19507 8360 8870; CX 2376 8870 19259; CX 2311 8360 19506; CX 8806 8360 19505; CA 19506 19505 19504; CX 19504 8360 8359;
  CX 19503 8359 8869; CX 2375 8869 19255; CX 8805 8359 19501; CX 2310 8359 19502; CA 19502 19501 19500; CX 19500 8359 8358; CX 8804 8358 19497; CX 19499 8358 8868;
  CX 2374 8868 19251; CX 19567 8375 8885; CX 2391 8885 19319; CX 19319 8440 8949; CX 8885 8440 19317; CA 19318 19317 19316; CX 19316 8440 8439; CX 19315 8439 8948;
  CX 8884 8439 19313; CX 2390 8439 19314; CA 19314 19313 19312; CX 19312 8439 8438; CX 19311 8438 8947; CX 8883 8438 19309; CX 2389 8438 19310; CA 19310 19309 19308;
  CX 19308 8438 8437; CX 19307 8437 8946; CX 8882 8437 19305; CX 2388 8437 19306; CA 19306 19305 19304; CX 19304 8437 8436; CX 19303 8436 8945; CX 8881 8436 19301;
  CX 2387 8436 19302; CA 19302 19301 19300; CX 19300 8436 8435; CX 19299 8435 8944; CX 8880 8435 19297; CX 2386 8435 19298; CA 19298 19297 19296; CX 19296 8435 8434;
  CX 19295 8434 8943; CX 8879 8434 19293; CX 2385 8434 19294; CA 19294 19293 19292; CX 19292 8434 8433; CX 19291 8433 8942; CX 8878 8433 19289; CX 2384 8433 19290;
  CA 19290 19289 19288; CX 19288 8433 8432; CX 19287 8432 8941; CX 8877 8432 19285; CX 2383 8432 19286; CA 19286 19285 19284; CX 19284 8432 8431; CX 19283 8431 8940;
  CX 8876 8431 19281; CX 2382 8431 19282; CA 19282 19281 19280; CX 19280 8431 8430; CX 19279 8430 8939; CX 8875 8430 19277; CX 2381 8430 19278; CA 19278 19277 19276;
  CX 19276 8430 8429; CX 19275 8429 8938; CX 8874 8429 19273; CX 2380 8429 19274; CA 19274 19273 19272; CX 19272 8429 8428; CX 19271 8428 8937; CX 8873 8428 19269;
  CX 2379 8428 19270; CA 19270 19269 19268; CX 19268 8428 8427; CX 19267 8427 8936; CX 8872 8427 19265; CX 2378 8427 19266; CA 19266 19265 19264; CX 19264 8427 8426;
  CX 19263 8426 8935; CX 8871 8426 19261; CX 2377 8426 19262; CA 19262 19261 19260; CX 19260 8426 8425; CX 19259 8425 8934; CX 8870 8425 19257; CX 2376 8425 19258;
  CA 19258 19257 19256; CX 19256 8425 8424; CX 19255 8424 8933; CX 8869 8424 19253; CX 2375 8424 19254; CA 19254 19253 19252; CX 19252 8424 8423; CX 19251 8423 8932;
  CX 8868 8423 19249; CX 2374 8423 19250; CA 19250 19249 19248; CX 19248 8423 8422; CX 2373 8422 19246; CX 2456 8949 19071; CX 2455 8948 19067; CX 19071 8505 9013;
  CX 8949 8505 19069; CA 19070 19069 19068; CX 19068 8505 8504; CX 2454 8947 19063; CX 19067 8504 9012; CX 2455 8504 19066; CX 8948 8504 19065; CA 19066 19065 19064;
  CX 19064 8504 8503; CX 2453 8946 19059; CX 19063 8503 9011; CX 2454 8503 19062; CX 8947 8503 19061; CA 19062 19061 19060; CX 19060 8503 8502; CX 2452 8945 19055;
  CX 19059 8502 9010; CX 2453 8502 19058; CX 8946 8502 19057; CA 19058 19057 19056; CX 19056 8502 8501; CX 2451 8944 19051; CX 19055 8501 9009; CX 2452 8501 19054;
  CX 8945 8501 19053; CA 19054 19053 19052; CX 19052 8501 8500; CX 2450 8943 19047; CX 19051 8500 9008; CX 2451 8500 19050; CX 8944 8500 19049; CA 19050 19049 19048;
  CX 19048 8500 8499; CX 2449 8942 19043; CX 19047 8499 9007; CX 2450 8499 19046; CX 8943 8499 19045; CA 19046 19045 19044; CX 19044 8499 8498; CX 2448 8941 19039;
  CX 19043 8498 9006; CX 2449 8498 19042; CX 8942 8498 19041; CA 19042 19041 19040; CX 19040 8498 8497; CX 2447 8940 19035; CX 19039 8497 9005; CX 2448 8497 19038;
  CX 8941 8497 19037; CA 19038 19037 19036; CX 19036 8497 8496; CX 2446 8939 19031; CX 19035 8496 9004; CX 2447 8496 19034; CX 8940 8496 19033; CA 19034 19033 19032;
  CX 19032 8496 8495; CX 2445 8938 19027; CX 19031 8495 9003; CX 2446 8495 19030; CX 8939 8495 19029; CA 19030 19029 19028; CX 19028 8495 8494; CX 2444 8937 19023;
  CX 19027 8494 9002; CX 2445 8494 19026; CX 8938 8494 19025; CA 19026 19025 19024; CX 19024 8494 8493; CX 2443 8936 19019; CX 19023 8493 9001; CX 2444 8493 19022;
  CX 8937 8493 19021; CA 19022 19021 19020; CX 19020 8493 8492; CX 2442 8935 19015; CX 19019 8492 9000; CX 2443 8492 19018; CX 8936 8492 19017; CA 19018 19017 19016;
  CX 19016 8492 8491; CX 2441 8934 19011; CX 19015 8491 8999; CX 2442 8491 19014; CX 8935 8491 19013; CA 19014 19013 19012; CX 19012 8491 8490; CX 2440 8933 19007;
  CX 19011 8490 8998; CX 2441 8490 19010; CX 8934 8490 19009; CA 19010 19009 19008; CX 19008 8490 8489; CX 2439 8932 19003; CX 19007 8489 8997; CX 2440 8489 19006;
  CX 8933 8489 19005; CA 19006 19005 19004; CX 19004 8489 8488; CX 19003 8488 8996; CX 2439 8488 19002; CX 8932 8488 19001; CA 19002 19001 19000; CX 19000 8488 8487;
  CX 2438 8487 18998; CX 9013 8570 18821; CA 18822 18821 18820; CX 2521 9013 18823; CX 18823 8570 9077; CX 18820 8570 8569; CX 2520 8569 18818; CX 9012 8569 18817;
  CA 18818 18817 18816; CX 2520 9012 18819; CX 18819 8569 9076; CX 18816 8569 8568; CX 2519 8568 18814; CX 9011 8568 18813; CA 18814 18813 18812; CX 2519 9011 18815;
  CX 18815 8568 9075; CX 18812 8568 8567; CX 2518 8567 18810; CX 9010 8567 18809; CA 18810 18809 18808; CX 2518 9010 18811; CX 18811 8567 9074; CX 18808 8567 8566;
  CX 2517 8566 18806; CX 9009 8566 18805; CA 18806 18805 18804; CX 2517 9009 18807; CX 18807 8566 9073; CX 18804 8566 8565; CX 2516 8565 18802; CX 9008 8565 18801;
  CA 18802 18801 18800; CX 2516 9008 18803; CX 18803 8565 9072; CX 18800 8565 8564; CX 2515 8564 18798; CX 9007 8564 18797; CA 18798 18797 18796; CX 2515 9007 18799;
  CX 18799 8564 9071; CX 18796 8564 8563; CX 2514 8563 18794; CX 9006 8563 18793; CA 18794 18793 18792; CX 2514 9006 18795; CX 18795 8563 9070; CX 18792 8563 8562;
  CX 2513 8562 18790; CX 9005 8562 18789; CA 18790 18789 18788; CX 2513 9005 18791; CX 18791 8562 9069; CX 18788 8562 8561; CX 2512 8561 18786; CX 9004 8561 18785;
  CA 18786 18785 18784; CX 2512 9004 18787; CX 18787 8561 9068; CX 18784 8561 8560; CX 2511 8560 18782; CX 9003 8560 18781; CA 18782 18781 18780; CX 2511 9003 18783;
  CX 18783 8560 9067; CX 18780 8560 8559; CX 2510 8559 18778; CX 9002 8559 18777; CA 18778 18777 18776; CX 2510 9002 18779; CX 18779 8559 9066; CX 18776 8559 8558;
  CX 2509 8558 18774; CX 9001 8558 18773; CA 18774 18773 18772; CX 2509 9001 18775; CX 18775 8558 9065; CX 18772 8558 8557; CX 2508 8557 18770; CX 9000 8557 18769;
  CA 18770 18769 18768; CX 2508 9000 18771; CX 18771 8557 9064; CX 18768 8557 8556; CX 2507 8556 18766; CX 8999 8556 18765; CA 18766 18765 18764; CX 2507 8999 18767;
  CX 18767 8556 9063; CX 18764 8556 8555; CX 2506 8555 18762; CX 8998 8555 18761; CA 18762 18761 18760; CX 2506 8998 18763; CX 18763 8555 9062; CX 18760 8555 8554;
  CX 2505 8554 18758; CX 8997 8554 18757; CA 18758 18757 18756; CX 2505 8997 18759; CX 18759 8554 9061; CX 18756 8554 8553; CX 2504 8553 18754; CX 8996 8553 18753;
  CA 18754 18753 18752; CX 2504 8996 18755; CX 18755 8553 9060; CX 18752 8553 8552; CX 2503 8552 18750; CX 2586 9077 18575; CX 18575 8635 9141; CX 2585 9076 18571;
  CX 2584 9075 18567; CX 9077 8635 18573; CA 18574 18573 18572; CX 18572 8635 8634; CX 18571 8634 9140; CX 2585 8634 18570; CX 2583 9074 18563; CX 9076 8634 18569;
  CA 18570 18569 18568; CX 18568 8634 8633; CX 18567 8633 9139; CX 2584 8633 18566; CX 2582 9073 18559; CX 9075 8633 18565; CA 18566 18565 18564; CX 18564 8633 8632;
  CX 18563 8632 9138; CX 2583 8632 18562; CX 2581 9072 18555; CX 9074 8632 18561; CA 18562 18561 18560; CX 18560 8632 8631; CX 18559 8631 9137; CX 2582 8631 18558;
  CX 2580 9071 18551; CX 9073 8631 18557; CA 18558 18557 18556; CX 18556 8631 8630; CX 18555 8630 9136; CX 2581 8630 18554; CX 2579 9070 18547; CX 9072 8630 18553].
(** Lines 21605-22004 of the file. *)
Definition mult2_64_54 : list cg := [
  CA 18554 18553 18552; CX 18552 8630 8629; CX 18551 8629 9135; CX 2580 8629 18550; CX 2578 9069 18543; CX 9071 8629 18549; CA 18550 18549 18548; CX 18548 8629 8628;
  CX 18547 8628 9134; CX 2579 8628 18546; CX 2577 9068 18539; CX 9070 8628 18545; CA 18546 18545 18544; CX 18544 8628 8627; CX 18543 8627 9133; CX 2578 8627 18542;
  CX 2576 9067 18535; CX 9069 8627 18541; CA 18542 18541 18540; CX 18540 8627 8626; CX 18539 8626 9132; CX 2577 8626 18538; CX 2575 9066 18531; CX 9068 8626 18537;
  CA 18538 18537 18536; CX 18536 8626 8625; CX 18535 8625 9131; CX 2576 8625 18534; CX 2574 9065 18527; CX 9067 8625 18533; CA 18534 18533 18532; CX 18532 8625 8624;
  CX 18531 8624 9130; CX 2575 8624 18530; CX 2573 9064 18523; CX 9066 8624 18529; CA 18530 18529 18528; CX 18528 8624 8623; CX 18527 8623 9129; CX 2574 8623 18526;
  CX 2572 9063 18519; CX 9065 8623 18525; CA 18526 18525 18524; CX 18524 8623 8622; CX 18523 8622 9128; CX 2573 8622 18522; CX 2571 9062 18515; CX 9064 8622 18521;
  CA 18522 18521 18520; CX 18520 8622 8621; CX 18519 8621 9127; CX 2572 8621 18518; CX 2570 9061 18511; CX 9063 8621 18517; CA 18518 18517 18516; CX 18516 8621 8620;
  CX 18515 8620 9126; CX 2571 8620 18514; CX 2569 9060 18507; CX 9062 8620 18513; CA 18514 18513 18512; CX 18512 8620 8619; CX 18511 8619 9125; CX 2570 8619 18510;
  CX 9061 8619 18509; CA 18510 18509 18508; CX 18508 8619 8618; CX 18507 8618 9124; CX 2569 8618 18506; CX 9060 8618 18505; CA 18506 18505 18504; CX 18504 8618 8617;
  CX 2568 8617 18502; CX 2651 9141 18327; CX 18327 8700 9205; CX 2650 9140 18323; CX 9141 8700 18325; CA 18326 18325 18324; CX 18324 8700 8699; CX 2650 8699 18322;
  CX 18323 8699 9204; CX 2649 9139 18319; CX 9140 8699 18321; CA 18322 18321 18320; CX 18320 8699 8698; CX 2649 8698 18318; CX 18319 8698 9203; CX 2648 9138 18315;
  CX 9139 8698 18317; CA 18318 18317 18316; CX 18316 8698 8697; CX 2648 8697 18314; CX 18315 8697 9202; CX 2647 9137 18311; CX 9138 8697 18313; CA 18314 18313 18312;
  CX 18312 8697 8696; CX 2647 8696 18310; CX 18311 8696 9201; CX 2646 9136 18307; CX 9137 8696 18309; CA 18310 18309 18308; CX 18308 8696 8695; CX 2646 8695 18306;
  CX 18307 8695 9200; CX 2645 9135 18303; CX 9136 8695 18305; CA 18306 18305 18304; CX 18304 8695 8694; CX 2645 8694 18302; CX 18303 8694 9199; CX 2644 9134 18299;
  CX 9135 8694 18301; CA 18302 18301 18300; CX 18300 8694 8693; CX 2644 8693 18298; CX 18299 8693 9198; CX 2643 9133 18295; CX 9134 8693 18297; CA 18298 18297 18296;
  CX 18296 8693 8692; CX 2643 8692 18294; CX 18295 8692 9197; CX 2642 9132 18291; CX 9133 8692 18293; CA 18294 18293 18292; CX 18292 8692 8691; CX 2642 8691 18290;
  CX 18291 8691 9196; CX 2641 9131 18287; CX 9132 8691 18289; CA 18290 18289 18288; CX 18288 8691 8690; CX 2641 8690 18286; CX 18287 8690 9195; CX 2640 9130 18283;
  CX 9131 8690 18285; CA 18286 18285 18284; CX 18284 8690 8689; CX 2640 8689 18282; CX 18283 8689 9194; CX 2639 9129 18279; CX 9130 8689 18281; CA 18282 18281 18280;
  CX 18280 8689 8688; CX 2639 8688 18278; CX 18279 8688 9193; CX 2638 9128 18275; CX 9129 8688 18277; CA 18278 18277 18276; CX 18276 8688 8687; CX 2638 8687 18274;
  CX 18275 8687 9192; CX 2637 9127 18271; CX 9128 8687 18273; CA 18274 18273 18272; CX 18272 8687 8686; CX 2637 8686 18270; CX 18271 8686 9191; CX 2636 9126 18267;
  CX 9127 8686 18269; CA 18270 18269 18268; CX 18268 8686 8685; CX 2636 8685 18266; CX 18267 8685 9190; CX 2635 9125 18263; CX 9126 8685 18265; CA 18266 18265 18264;
  CX 18264 8685 8684; CX 2635 8684 18262; CX 18263 8684 9189; CX 2634 9124 18259; CX 9125 8684 18261; CA 18262 18261 18260; CX 18260 8684 8683; CX 2634 8683 18258;
  CX 18259 8683 9188; CX 9124 8683 18257; CA 18258 18257 18256; CX 18256 8683 8682; CX 2633 8682 18254; CX 2716 9205 18079; CX 18079 8765 9269; CX 2715 9204 18075;
  CX 9205 8765 18077; CA 18078 18077 18076; CX 18076 8765 8764; CX 18075 8764 9268; CX 2714 9203 18071; CX 2715 8764 18074; CX 9204 8764 18073; CA 18074 18073 18072;
  CX 18072 8764 8763; CX 18071 8763 9267; CX 2713 9202 18067; CX 2714 8763 18070; CX 9203 8763 18069; CA 18070 18069 18068; CX 18068 8763 8762; CX 18067 8762 9266;
  CX 2712 9201 18063; CX 2713 8762 18066; CX 9202 8762 18065; CA 18066 18065 18064; CX 18064 8762 8761; CX 18063 8761 9265; CX 2711 9200 18059; CX 2712 8761 18062;
  CX 9201 8761 18061; CA 18062 18061 18060; CX 18060 8761 8760; CX 18059 8760 9264; CX 2710 9199 18055; CX 2711 8760 18058; CX 9200 8760 18057; CA 18058 18057 18056;
  CX 18056 8760 8759; CX 18055 8759 9263; CX 2709 9198 18051; CX 2710 8759 18054; CX 9199 8759 18053; CA 18054 18053 18052; CX 18052 8759 8758; CX 18051 8758 9262;
  CX 2708 9197 18047; CX 2709 8758 18050; CX 9198 8758 18049; CA 18050 18049 18048; CX 18048 8758 8757; CX 18047 8757 9261; CX 2707 9196 18043; CX 2708 8757 18046;
  CX 9197 8757 18045; CA 18046 18045 18044; CX 18044 8757 8756; CX 18043 8756 9260; CX 2706 9195 18039; CX 2707 8756 18042; CX 9196 8756 18041; CA 18042 18041 18040;
  CX 18040 8756 8755; CX 18039 8755 9259; CX 2705 9194 18035; CX 2706 8755 18038; CX 9195 8755 18037; CA 18038 18037 18036; CX 18036 8755 8754; CX 18035 8754 9258;
  CX 2704 9193 18031; CX 2705 8754 18034; CX 9194 8754 18033; CA 18034 18033 18032; CX 18032 8754 8753; CX 18031 8753 9257; CX 2703 9192 18027; CX 2704 8753 18030;
  CX 9193 8753 18029; CA 18030 18029 18028; CX 18028 8753 8752; CX 18027 8752 9256; CX 2768 9256 17779; CX 2702 9191 18023; CX 2703 8752 18026; CX 9192 8752 18025;
  CA 18026 18025 18024; CX 18024 8752 8751; CX 18023 8751 9255; CX 2701 9190 18019; CX 2702 8751 18022; CX 9191 8751 18021; CA 18022 18021 18020; CX 18020 8751 8750;
  CX 18019 8750 9254; CX 2700 9189 18015; CX 2701 8750 18018; CX 9190 8750 18017; CA 18018 18017 18016; CX 18016 8750 8749; CX 18015 8749 9253; CX 2699 9188 18011;
  CX 2700 8749 18014; CX 9189 8749 18013; CA 18014 18013 18012; CX 18012 8749 8748; CX 18011 8748 9252; CX 2699 8748 18010; CX 9188 8748 18009; CA 18010 18009 18008;
  CX 18008 8748 8747; CX 2698 8747 18006; CX 2781 9269 17831; CX 17831 9334 9845; CX 9269 9334 17829; CA 17830 17829 17828; CX 17828 9334 9333; CX 2780 9333 17826;
  CX 2780 9268 17827; CX 17827 9333 9844; CX 9268 9333 17825; CA 17826 17825 17824; CX 17824 9333 9332; CX 2779 9332 17822; CX 2779 9267 17823; CX 17823 9332 9843;
  CX 9267 9332 17821; CA 17822 17821 17820; CX 17820 9332 9331; CX 2778 9331 17818; CX 2778 9266 17819; CX 17819 9331 9842; CX 9266 9331 17817; CA 17818 17817 17816;
  CX 17816 9331 9330; CX 2777 9330 17814; CX 2777 9265 17815; CX 17815 9330 9841; CX 9265 9330 17813; CA 17814 17813 17812; CX 17812 9330 9329; CX 2776 9329 17810;
  CX 2776 9264 17811; CX 17811 9329 9840; CX 9264 9329 17809; CA 17810 17809 17808; CX 17808 9329 9328; CX 2775 9328 17806; CX 2775 9263 17807; CX 17807 9328 9839;
  CX 9263 9328 17805; CA 17806 17805 17804; CX 17804 9328 9327; CX 2774 9327 17802; CX 2774 9262 17803; CX 17803 9327 9838; CX 9262 9327 17801; CA 17802 17801 17800;
  CX 17800 9327 9326; CX 2773 9326 17798; CX 2773 9261 17799; CX 17799 9326 9837; CX 9261 9326 17797; CA 17798 17797 17796; CX 17796 9326 9325; CX 2772 9325 17794;
  CX 2772 9260 17795; CX 17795 9325 9836; CX 9260 9325 17793; CA 17794 17793 17792; CX 17792 9325 9324; CX 2771 9324 17790; CX 2771 9259 17791; CX 17791 9324 9835;
  CX 9259 9324 17789; CA 17790 17789 17788; CX 17788 9324 9323; CX 2770 9323 17786; CX 2770 9258 17787; CX 17787 9323 9834; CX 9258 9323 17785; CA 17786 17785 17784;
  CX 17784 9323 9322; CX 2769 9322 17782; CX 2769 9257 17783; CX 17783 9322 9833; CX 2767 9255 17775; CX 9257 9322 17781; CA 17782 17781 17780; CX 17780 9322 9321;
  CX 17779 9321 9832; CX 9256 9321 17777; CX 2768 9321 17778; CA 17778 17777 17776; CX 17776 9321 9320; CX 9255 9320 17773; CX 2767 9320 17774; CX 2766 9254 17771;
  CX 17775 9320 9831; CA 17774 17773 17772; CX 17772 9320 9319; CX 9254 9319 17769; CX 2766 9319 17770; CX 2765 9253 17767; CX 17771 9319 9830; CA 17770 17769 17768;
  CX 17768 9319 9318; CX 9253 9318 17765; CX 2765 9318 17766; CX 2764 9252 17763; CX 17767 9318 9829; CA 17766 17765 17764; CX 17764 9318 9317; CX 9252 9317 17761;
  CX 2764 9317 17762; CX 17763 9317 9828; CA 17762 17761 17760; CX 17760 9317 9316; CX 2763 9316 17758; CX 2846 9845 17583; CX 17583 9399 9909; CX 2845 9844 17579].
(** Lines 22005-22404 of the file. *)
Definition mult2_64_55 : list cg := [
  CX 9845 9399 17581; CA 17582 17581 17580; CX 17580 9399 9398; CX 2845 9398 17578; CX 17579 9398 9908; CX 2844 9843 17575; CX 9844 9398 17577; CA 17578 17577 17576;
  CX 17576 9398 9397; CX 2844 9397 17574; CX 17575 9397 9907; CX 2843 9842 17571; CX 9843 9397 17573; CA 17574 17573 17572; CX 17572 9397 9396; CX 2843 9396 17570;
  CX 17571 9396 9906; CX 2842 9841 17567; CX 9842 9396 17569; CA 17570 17569 17568; CX 17568 9396 9395; CX 2842 9395 17566; CX 17567 9395 9905; CX 2841 9840 17563;
  CX 9841 9395 17565; CA 17566 17565 17564; CX 17564 9395 9394; CX 2841 9394 17562; CX 17563 9394 9904; CX 2906 9904 17315; CX 2840 9839 17559; CX 9840 9394 17561;
  CA 17562 17561 17560; CX 17560 9394 9393; CX 2840 9393 17558; CX 17559 9393 9903; CX 2839 9838 17555; CX 9839 9393 17557; CA 17558 17557 17556; CX 17556 9393 9392;
  CX 2839 9392 17554; CX 17555 9392 9902; CX 2838 9837 17551; CX 9838 9392 17553; CA 17554 17553 17552; CX 17552 9392 9391; CX 2838 9391 17550; CX 17551 9391 9901;
  CX 2903 9901 17303; CX 2837 9836 17547; CX 9837 9391 17549; CA 17550 17549 17548; CX 17548 9391 9390; CX 2837 9390 17546; CX 17547 9390 9900; CX 2836 9835 17543;
  CX 9836 9390 17545; CA 17546 17545 17544; CX 17544 9390 9389; CX 2836 9389 17542; CX 17543 9389 9899; CX 2835 9834 17539; CX 9835 9389 17541; CA 17542 17541 17540;
  CX 17540 9389 9388; CX 2835 9388 17538; CX 17539 9388 9898; CX 2834 9833 17535; CX 9834 9388 17537; CA 17538 17537 17536; CX 17536 9388 9387; CX 17535 9387 9897;
  CX 2834 9387 17534; CX 9833 9387 17533; CA 17534 17533 17532; CX 17532 9387 9386; CX 2833 9832 17531; CX 17531 9386 9896; CX 2833 9386 17530; CX 9832 9386 17529;
  CA 17530 17529 17528; CX 17528 9386 9385; CX 2832 9831 17527; CX 17527 9385 9895; CX 2832 9385 17526; CX 9831 9385 17525; CA 17526 17525 17524; CX 17524 9385 9384;
  CX 2831 9830 17523; CX 17523 9384 9894; CX 2831 9384 17522; CX 9830 9384 17521; CA 17522 17521 17520; CX 17520 9384 9383; CX 2830 9829 17519; CX 17519 9383 9893;
  CX 2830 9383 17518; CX 9829 9383 17517; CA 17518 17517 17516; CX 17516 9383 9382; CX 2829 9828 17515; CX 17515 9382 9892; CX 2894 9892 17267; CX 2829 9382 17514;
  CX 9828 9382 17513; CA 17514 17513 17512; CX 17512 9382 9381; CX 2828 9381 17510; CX 2911 9909 17335; CX 17335 9464 9973; CX 2976 9973 17087; CX 9909 9464 17333;
  CA 17334 17333 17332; CX 17332 9464 9463; CX 2910 9463 17330; CX 2910 9908 17331; CX 17331 9463 9972; CX 2975 9972 17083; CX 9908 9463 17329; CA 17330 17329 17328;
  CX 17328 9463 9462; CX 2909 9462 17326; CX 2909 9907 17327; CX 17327 9462 9971; CX 9907 9462 17325; CA 17326 17325 17324; CX 17324 9462 9461; CX 2908 9461 17322;
  CX 2908 9906 17323; CX 17323 9461 9970; CX 2973 9970 17075; CX 9906 9461 17321; CA 17322 17321 17320; CX 17320 9461 9460; CX 2907 9460 17318; CX 2907 9905 17319;
  CX 17319 9460 9969; CX 9905 9460 17317; CA 17318 17317 17316; CX 17316 9460 9459; CX 17315 9459 9968; CX 9904 9459 17313; CX 2906 9459 17314; CA 17314 17313 17312;
  CX 17312 9459 9458; CX 2905 9903 17311; CX 9903 9458 17309; CX 17311 9458 9967; CX 2905 9458 17310; CA 17310 17309 17308; CX 17308 9458 9457; CX 2904 9902 17307;
  CX 9902 9457 17305; CX 17307 9457 9966; CX 2904 9457 17306; CA 17306 17305 17304; CX 17304 9457 9456; CX 17303 9456 9965; CX 9901 9456 17301; CX 2903 9456 17302;
  CA 17302 17301 17300; CX 17300 9456 9455; CX 2902 9900 17299; CX 17299 9455 9964; CX 2967 9964 17051; CX 2902 9455 17298; CX 2901 9899 17295; CX 9900 9455 17297;
  CA 17298 17297 17296; CX 17296 9455 9454; CX 17295 9454 9963; CX 2901 9454 17294; CX 2900 9898 17291; CX 9899 9454 17293; CA 17294 17293 17292; CX 17292 9454 9453;
  CX 17291 9453 9962; CX 2900 9453 17290; CX 2899 9897 17287; CX 9898 9453 17289; CA 17290 17289 17288; CX 17288 9453 9452; CX 17287 9452 9961; CX 2899 9452 17286;
  CX 2898 9896 17283; CX 9897 9452 17285; CA 17286 17285 17284; CX 17284 9452 9451; CX 2898 9451 17282; CX 17283 9451 9960; CX 9896 9451 17281; CA 17282 17281 17280;
  CX 17280 9451 9450; CX 2897 9450 17278; CX 2897 9895 17279; CX 17279 9450 9959; CX 2896 9894 17275; CX 9895 9450 17277; CA 17278 17277 17276; CX 17276 9450 9449;
  CX 17275 9449 9958; CX 2961 9958 17027; CX 2896 9449 17274; CX 9894 9449 17273; CA 17274 17273 17272; CX 17272 9449 9448; CX 2895 9448 17270; CX 2895 9893 17271;
  CX 17271 9448 9957; CX 9893 9448 17269; CA 17270 17269 17268; CX 17268 9448 9447; CX 2894 9447 17266; CX 17267 9447 9956; CX 9892 9447 17265; CA 17266 17265 17264;
  CX 17264 9447 9446; CX 2893 9446 17262; CX 17087 9529 10037; CX 3041 10037 16839; CX 16839 9594 10101; CX 3106 10101 16591; CX 16591 9659 10165; CX 3171 10165 16343;
  CX 16343 9724 10229; CX 10165 9724 16341; CA 16342 16341 16340; CX 16340 9724 9723; CX 3170 9723 16338; CX 3236 10229 16095; CX 16095 9789 10293; CX 10229 9789 16093;
  CA 16094 16093 16092; CX 16092 9789 9788; CX 3301 10293 15847; CX 15847 10358 10869; CX 3366 10869 15599; CX 15599 10423 10933; CX 3431 10933 15351; CX 15351 10488 10997;
  CX 3496 10997 15103; CX 15103 10553 11061; CX 3561 11061 14855; CX 14855 10618 11125; CX 10997 10553 15101; CA 15102 15101 15100; CX 15100 10553 10552; CX 11061 10618 14853;
  CA 14854 14853 14852; CX 14852 10618 10617; CX 3626 11125 14607; CX 14607 10683 11189; CX 11125 10683 14605; CA 14606 14605 14604; CX 14604 10683 10682; CX 3691 11189 14359;
  CX 14359 10748 11253; CX 3756 11253 14111; CX 14111 10813 11317; CX 11253 10813 14109; CA 14110 14109 14108; CX 14108 10813 10812; CX 3755 10812 14106; CX 3821 11317 13863;
  CX 13863 11382 11828; CX 3886 11828 13615; CX 13615 11447 11892; CX 11828 11447 13613; CA 13614 13613 13612; CX 13612 11447 11446; CX 3885 11446 13610; CX 3625 10682 14602;
  CX 3495 10552 15098; CX 11189 10748 14357; CA 14358 14357 14356; CX 14356 10748 10747; CX 3690 10747 14354; CX 10869 10423 15597; CA 15598 15597 15596; CX 15596 10423 10422;
  CX 3365 10422 15594; CX 3560 10617 14850; CX 10933 10488 15349; CA 15350 15349 15348; CX 15348 10488 10487; CX 3430 10487 15346; CX 3951 11892 13367; CX 13367 11512 11956;
  CX 4016 11956 13119; CX 13119 11577 12020; CX 11956 11577 13117; CA 13118 13117 13116; CX 13116 11577 11576; CX 4015 11576 13114; CX 4081 12020 12871; CX 12871 11642 12084;
  CX 12020 11642 12869; CA 12870 12869 12868; CX 12868 11642 11641; CX 4080 11641 12866; CX 4146 12084 12623; CX 12623 11707 12148; CX 12084 11707 12621; CA 12622 12621 12620;
  CX 12620 11707 11706; CX 4145 11706 12618; CX 4211 12148 12375; CX 12375 11771 28042; CX 12148 11771 12373; CA 12374 12373 12372; CX 12372 11771 11770; CX 4210 11770 12370;
  CX 11892 11512 13365; CA 13366 13365 13364; CX 13364 11512 11511; CX 3950 11511 13362; CX 10293 10358 15845; CA 15846 15845 15844; CX 15844 10358 10357; CX 3300 10357 15842;
  CX 10101 9659 16589; CA 16590 16589 16588; CX 16588 9659 9658; CX 3105 9658 16586; CX 9973 9529 17085; CA 17086 17085 17084; CX 17084 9529 9528; CX 2975 9528 17082;
  CX 9972 9528 17081; CA 17082 17081 17080; CX 17083 9528 10036; CX 3040 10036 16835; CX 17080 9528 9527; CX 2974 9971 17079; CX 17079 9527 10035; CX 3039 10035 16831;
  CX 2974 9527 17078; CX 9971 9527 17077; CA 17078 17077 17076; CX 17076 9527 9526; CX 17075 9526 10034; CX 3038 10034 16827; CX 9970 9526 17073; CX 2973 9526 17074;
  CA 17074 17073 17072; CX 17072 9526 9525; CX 2972 9969 17071; CX 2972 9525 17070; CX 9969 9525 17069; CA 17070 17069 17068; CX 17068 9525 9524; CX 17071 9525 10033;
  CX 3037 10033 16823; CX 2971 9968 17067; CX 17067 9524 10032; CX 3036 10032 16819; CX 9968 9524 17065; CX 2971 9524 17066; CA 17066 17065 17064; CX 17064 9524 9523;
  CX 9967 9523 17061; CX 2970 9523 17062; CA 17062 17061 17060; CX 17060 9523 9522; CX 2970 9967 17063; CX 17063 9523 10031; CX 3035 10031 16815; CX 9966 9522 17057;
  CX 2969 9966 17059; CX 17059 9522 10030; CX 2969 9522 17058; CA 17058 17057 17056; CX 17056 9522 9521; CX 9965 9521 17053; CX 2968 9521 17054; CA 17054 17053 17052;
  CX 2968 9965 17055; CX 17055 9521 10029; CX 3033 10029 16807; CX 17052 9521 9520; CX 9964 9520 17049; CX 17051 9520 10028; CX 3032 10028 16803; CX 2966 9963 17047;
  CX 2967 9520 17050; CA 17050 17049 17048; CX 17048 9520 9519; CX 17047 9519 10027; CX 3031 10027 16799; CX 9963 9519 17045; CX 2966 9519 17046; CA 17046 17045 17044;
  CX 17044 9519 9518; CX 2965 9518 17042; CX 9962 9518 17041; CX 2965 9962 17043; CX 17043 9518 10026; CX 3030 10026 16795; CX 2964 9961 17039; CA 17042 17041 17040].
(** Lines 22405-22804 of the file. *)
Definition mult2_64_56 : list cg := [
  CX 17040 9518 9517; CX 17039 9517 10025; CX 3029 10025 16791; CX 9961 9517 17037; CX 2963 9960 17035; CX 2964 9517 17038; CA 17038 17037 17036; CX 17036 9517 9516;
  CX 2963 9516 17034; CX 17035 9516 10024; CX 3028 10024 16787; CX 9960 9516 17033; CA 17034 17033 17032; CX 17032 9516 9515; CX 2962 9515 17030; CX 2962 9959 17031;
  CX 17031 9515 10023; CX 9959 9515 17029; CA 17030 17029 17028; CX 17028 9515 9514; CX 2961 9514 17026; CX 17027 9514 10022; CX 3026 10022 16779; CX 2960 9957 17023;
  CX 9958 9514 17025; CA 17026 17025 17024; CX 17024 9514 9513; CX 9957 9513 17021; CX 2960 9513 17022; CX 17023 9513 10021; CX 3025 10021 16775; CA 17022 17021 17020;
  CX 17020 9513 9512; CX 2959 9512 17018; CX 9956 9512 17017; CA 17018 17017 17016; CX 17016 9512 9511; CX 2958 9511 17014; CX 2959 9956 17019; CX 17019 9512 10020;
  CX 3024 10020 16771; CX 3235 9788 16090; CX 10037 9594 16837; CA 16838 16837 16836; CX 16836 9594 9593; CX 10036 9593 16833; CX 3040 9593 16834; CX 16835 9593 10100;
  CX 3105 10100 16587; CX 10100 9658 16585; CX 16587 9658 10164; CX 3170 10164 16339; CX 16339 9723 10228; CX 10164 9723 16337; CA 16338 16337 16336; CX 16336 9723 9722;
  CX 3169 9722 16334; CX 10228 9788 16089; CA 16090 16089 16088; CX 16088 9788 9787; CX 3234 9787 16086; CA 16586 16585 16584; CX 16584 9658 9657; CX 3104 9657 16582;
  CX 3235 10228 16091; CX 16091 9788 10292; CX 3300 10292 15843; CX 15843 10357 10868; CX 10868 10422 15593; CX 3365 10868 15595; CX 15595 10422 10932; CA 15594 15593 15592;
  CX 15592 10422 10421; CX 3364 10421 15590; CX 3430 10932 15347; CX 15347 10487 10996; CX 10996 10552 15097; CX 3495 10996 15099; CX 15099 10552 11060; CA 15098 15097 15096;
  CX 15096 10552 10551; CX 3560 11060 14851; CX 14851 10617 11124; CX 3625 11124 14603; CX 14603 10682 11188; CX 11188 10747 14353; CA 14354 14353 14352; CX 11124 10682 14601;
  CA 14602 14601 14600; CX 14600 10682 10681; CX 3624 10681 14598; CX 3494 10551 15094; CX 11060 10617 14849; CA 14850 14849 14848; CX 14848 10617 10616; CX 14352 10747 10746;
  CX 3689 10746 14350; CX 3690 11188 14355; CX 14355 10747 11252; CX 3755 11252 14107; CX 14107 10812 11316; CX 11252 10812 14105; CA 14106 14105 14104; CX 14104 10812 10811;
  CX 3754 10811 14102; CX 3820 11316 13859; CX 10932 10487 15345; CA 15346 15345 15344; CX 15344 10487 10486; CX 3429 10486 15342; CX 3559 10616 14846; CX 10292 10357 15841;
  CA 15842 15841 15840; CX 15840 10357 10356; CX 3299 10356 15838; CA 16834 16833 16832; CX 16832 9593 9592; CX 16831 9592 10099; CX 10099 9657 16581; CA 16582 16581 16580;
  CX 16580 9657 9656; CX 3039 9592 16830; CX 10035 9592 16829; CA 16830 16829 16828; CX 16828 9592 9591; CX 16827 9591 10098; CX 3038 9591 16826; CX 10034 9591 16825;
  CA 16826 16825 16824; CX 16824 9591 9590; CX 16823 9590 10097; CX 10033 9590 16821; CX 3037 9590 16822; CA 16822 16821 16820; CX 16820 9590 9589; CX 16819 9589 10096;
  CX 3101 10096 16571; CX 3036 9589 16818; CX 10032 9589 16817; CA 16818 16817 16816; CX 16816 9589 9588; CX 16815 9588 10095; CX 3100 10095 16567; CX 10031 9588 16813;
  CX 3035 9588 16814; CA 16814 16813 16812; CX 16812 9588 9587; CX 10030 9587 16809; CX 3034 9587 16810; CA 16810 16809 16808; CX 3103 9656 16578; CX 3104 10099 16583;
  CX 16583 9657 10163; CX 3169 10163 16335; CX 16335 9722 10227; CX 10163 9722 16333; CA 16334 16333 16332; CX 16332 9722 9721; CX 3168 9721 16330; CX 3234 10227 16087;
  CX 16087 9787 10291; CX 10291 10356 15837; CA 15838 15837 15836; CX 15836 10356 10355; CX 3298 10355 15834; CX 10227 9787 16085; CA 16086 16085 16084; CX 16084 9787 9786;
  CX 3233 9786 16082; CX 3299 10291 15839; CX 15839 10356 10867; CX 3364 10867 15591; CX 15591 10421 10931; CX 10867 10421 15589; CA 15590 15589 15588; CX 15588 10421 10420;
  CX 3363 10420 15586; CX 3429 10931 15343; CX 15343 10486 10995; CX 3494 10995 15095; CX 15095 10551 11059; CX 10995 10551 15093; CA 15094 15093 15092; CX 15092 10551 10550;
  CX 3493 10550 15090; CX 3559 11059 14847; CX 14847 10616 11123; CX 3624 11123 14599; CX 14599 10681 11187; CX 3689 11187 14351; CX 14351 10746 11251; CX 3754 11251 14103;
  CX 14103 10811 11315; CX 11251 10811 14101; CA 14102 14101 14100; CX 14100 10811 10810; CX 3819 11315 13855; CX 11187 10746 14349; CX 3753 10810 14098; CX 11123 10681 14597;
  CA 14598 14597 14596; CX 14596 10681 10680; CX 3623 10680 14594; CA 14350 14349 14348; CX 14348 10746 10745; CX 3688 10745 14346; CX 10931 10486 15341; CA 15342 15341 15340;
  CX 15340 10486 10485; CX 3428 10485 15338; CX 11059 10616 14845; CA 14846 14845 14844; CX 14844 10616 10615; CX 3558 10615 14842; CX 3103 10098 16579; CX 16579 9656 10162;
  CX 3168 10162 16331; CX 16331 9721 10226; CX 3233 10226 16083; CX 16083 9786 10290; CX 10290 10355 15833; CX 3298 10290 15835; CX 15835 10355 10866; CX 3363 10866 15587;
  CX 15587 10420 10930; CX 10866 10420 15585; CA 15586 15585 15584; CX 15584 10420 10419; CX 3362 10419 15582; CA 15834 15833 15832; CX 15832 10355 10354; CX 10162 9721 16329;
  CA 16330 16329 16328; CX 16328 9721 9720; CX 10226 9786 16081; CA 16082 16081 16080; CX 3167 9720 16326; CX 16080 9786 9785; CX 3232 9785 16078; CX 3428 10930 15339;
  CX 15339 10485 10994; CX 10994 10550 15089; CA 15090 15089 15088; CX 3493 10994 15091; CX 15091 10550 11058; CX 11058 10615 14841; CA 14842 14841 14840; CX 15088 10550 10549;
  CX 3492 10549 15086; CX 10930 10485 15337; CA 15338 15337 15336; CX 15336 10485 10484; CX 3427 10484 15334; CX 3558 11058 14843; CX 14843 10615 11122; CX 3623 11122 14595;
  CX 14595 10680 11186; CX 3688 11186 14347; CX 14347 10745 11250; CX 3753 11250 14099; CX 14099 10810 11314; CX 3818 11314 13851; CX 11186 10745 14345; CX 11250 10810 14097;
  CA 14098 14097 14096; CX 14096 10810 10809; CX 3752 10809 14094; CA 14346 14345 14344; CX 14344 10745 10744; CX 3687 10744 14342; CX 11122 10680 14593; CA 14594 14593 14592;
  CX 14592 10680 10679; CX 3622 10679 14590; CX 3297 10354 15830; CX 14840 10615 10614; CX 3557 10614 14838; CX 3034 10030 16811; CX 16811 9587 10094; CX 3099 10094 16563;
  CX 16808 9587 9586; CX 16807 9586 10093; CX 3033 9586 16806; CX 10029 9586 16805; CA 16806 16805 16804; CX 16804 9586 9585; CX 16803 9585 10092; CX 3098 10093 16559;
  CX 3097 10092 16555; CX 3032 9585 16802; CX 10028 9585 16801; CA 16802 16801 16800; CX 16800 9585 9584; CX 16799 9584 10091; CX 3096 10091 16551; CX 10027 9584 16797;
  CX 3031 9584 16798; CA 16798 16797 16796; CX 16796 9584 9583; CX 16795 9583 10090; CX 3095 10090 16547; CX 3030 9583 16794; CX 10026 9583 16793; CA 16794 16793 16792;
  CX 16792 9583 9582; CX 16791 9582 10089; CX 3094 10089 16543; CX 3029 9582 16790; CX 10025 9582 16789; CA 16790 16789 16788; CX 16788 9582 9581; CX 16787 9581 10088;
  CX 3093 10088 16539; CX 3028 9581 16786; CX 10024 9581 16785; CA 16786 16785 16784; CX 16784 9581 9580; CX 3027 9580 16782; CX 10023 9580 16781; CA 16782 16781 16780;
  CX 16780 9580 9579; CX 3026 9579 16778; CX 16779 9579 10086; CX 10022 9579 16777; CA 16778 16777 16776; CX 16776 9579 9578; CX 16775 9578 10085; CX 3025 9578 16774;
  CX 10021 9578 16773; CA 16774 16773 16772; CX 16772 9578 9577; CX 16771 9577 10084; CX 3024 9577 16770; CX 10020 9577 16769; CA 16770 16769 16768; CX 16768 9577 9576;
  CX 3091 10086 16531; CX 3023 9576 16766; CX 3090 10085 16527; CX 3089 10084 16523; CX 3027 10023 16783; CX 16783 9580 10087; CX 3092 10087 16535; CX 10098 9656 16577;
  CA 16578 16577 16576; CX 16576 9656 9655; CX 3102 9655 16574; CX 10097 9655 16573; CA 16574 16573 16572; CX 16572 9655 9654; CX 16571 9654 10160; CX 10096 9654 16569;
  CX 3101 9654 16570; CA 16570 16569 16568; CX 16568 9654 9653; CX 10095 9653 16565; CX 3100 9653 16566; CX 16567 9653 10159; CA 16566 16565 16564; CX 16564 9653 9652;
  CX 16563 9652 10158; CX 3099 9652 16562; CX 10094 9652 16561; CA 16562 16561 16560; CX 16560 9652 9651; CX 16559 9651 10157; CX 10093 9651 16557; CX 3098 9651 16558;
  CA 16558 16557 16556; CX 16556 9651 9650; CX 16555 9650 10156; CX 3097 9650 16554; CX 10092 9650 16553; CA 16554 16553 16552; CX 16552 9650 9649; CX 10091 9649 16549;
  CX 3096 9649 16550; CA 16550 16549 16548; CX 16548 9649 9648; CX 16547 9648 10154; CX 10090 9648 16545; CX 3095 9648 16546; CA 16546 16545 16544; CX 16544 9648 9647;
  CX 16543 9647 10153; CX 16551 9649 10155; CX 10089 9647 16541; CX 3094 9647 16542; CA 16542 16541 16540; CX 16540 9647 9646; CX 16539 9646 10152; CX 3093 9646 16538;
  CX 10088 9646 16537; CA 16538 16537 16536; CX 16536 9646 9645; CX 3092 9645 16534; CX 16535 9645 10151; CX 10087 9645 16533; CA 16534 16533 16532; CX 16532 9645 9644].
(** Lines 22805-23204 of the file. *)
Definition mult2_64_57 : list cg := [
  CX 16531 9644 10150; CX 3091 9644 16530; CX 10086 9644 16529; CA 16530 16529 16528; CX 16528 9644 9643; CX 16527 9643 10149; CX 3090 9643 16526; CX 10085 9643 16525;
  CA 16526 16525 16524; CX 16524 9643 9642; CX 16523 9642 10148; CX 3089 9642 16522; CX 10084 9642 16521; CA 16522 16521 16520; CX 16520 9642 9641; CX 3166 10160 16323;
  CX 3165 10159 16319; CX 3164 10158 16315; CX 3163 10157 16311; CX 3162 10156 16307; CX 3088 9641 16518; CX 3161 10155 16303; CX 3160 10154 16299; CX 3159 10153 16295;
  CX 3158 10152 16291; CX 3157 10151 16287; CX 3156 10150 16283; CX 3155 10149 16279; CX 3154 10148 16275; CX 3102 10097 16575; CX 16575 9655 10161; CX 10161 9720 16325;
  CA 16326 16325 16324; CX 16324 9720 9719; CX 10160 9719 16321; CX 16323 9719 10224; CX 3167 10161 16327; CX 16327 9720 10225; CX 3232 10225 16079; CX 16079 9785 10289;
  CX 3297 10289 15831; CX 15831 10354 10865; CX 3362 10865 15583; CX 15583 10419 10929; CX 10865 10419 15581; CA 15582 15581 15580; CX 15580 10419 10418; CX 3361 10418 15578;
  CX 3166 9719 16322; CA 16322 16321 16320; CX 16320 9719 9718; CX 10159 9718 16317; CX 16319 9718 10223; CX 3230 10223 16071; CX 3165 9718 16318; CA 16318 16317 16316;
  CX 16316 9718 9717; CX 16315 9717 10222; CX 3229 10222 16067; CX 3164 9717 16314; CX 10158 9717 16313; CA 16314 16313 16312; CX 16312 9717 9716; CX 16311 9716 10221;
  CX 10157 9716 16309; CX 3163 9716 16310; CA 16310 16309 16308; CX 16308 9716 9715; CX 16307 9715 10220; CX 3227 10220 16059; CX 10156 9715 16305; CX 3162 9715 16306;
  CA 16306 16305 16304; CX 16304 9715 9714; CX 16303 9714 10219; CX 10155 9714 16301; CX 3161 9714 16302; CA 16302 16301 16300; CX 16300 9714 9713; CX 16299 9713 10218;
  CX 10154 9713 16297; CX 3160 9713 16298; CA 16298 16297 16296; CX 16296 9713 9712; CX 16295 9712 10217; CX 10153 9712 16293; CX 3159 9712 16294; CA 16294 16293 16292;
  CX 16292 9712 9711; CX 16291 9711 10216; CX 3223 10216 16043; CX 10152 9711 16289; CX 3158 9711 16290; CA 16290 16289 16288; CX 16288 9711 9710; CX 16287 9710 10215;
  CX 3228 10221 16063; CX 3225 10218 16051; CX 3224 10217 16047; CX 10151 9710 16285; CX 3157 9710 16286; CA 16286 16285 16284; CX 16284 9710 9709; CX 16283 9709 10214;
  CX 3221 10214 16035; CX 10150 9709 16281; CX 3156 9709 16282; CA 16282 16281 16280; CX 16280 9709 9708; CX 16279 9708 10213; CX 3220 10213 16031; CX 10149 9708 16277;
  CX 3155 9708 16278; CA 16278 16277 16276; CX 16276 9708 9707; CX 16275 9707 10212; CX 3219 10212 16027; CX 10148 9707 16273; CX 3154 9707 16274; CA 16274 16273 16272;
  CX 16272 9707 9706; CX 3153 9706 16270; CX 3226 10219 16055; CX 3427 10929 15335; CX 15335 10484 10993; CX 3492 10993 15087; CX 15087 10549 11057; CX 11057 10614 14837;
  CA 14838 14837 14836; CX 3557 11057 14839; CX 14839 10614 11121; CX 10993 10549 15085; CA 15086 15085 15084; CX 15084 10549 10548; CX 14836 10614 10613; CX 3556 10613 14834;
  CX 3622 11121 14591; CX 14591 10679 11185; CX 11185 10744 14341; CX 3687 11185 14343; CA 14342 14341 14340; CX 14340 10744 10743; CX 14343 10744 11249; CX 3752 11249 14095;
  CX 14095 10809 11313; CX 3817 11313 13847; CX 11121 10679 14589; CA 14590 14589 14588; CX 14588 10679 10678; CX 3621 10678 14586; CX 11249 10809 14093; CA 14094 14093 14092;
  CX 14092 10809 10808; CX 3751 10808 14090; CX 3491 10548 15082; CX 3686 10743 14338; CX 10929 10484 15333; CA 15334 15333 15332; CX 15332 10484 10483; CX 3426 10483 15330;
  CX 10289 10354 15829; CA 15830 15829 15828; CX 15828 10354 10353; CX 3296 10353 15826; CX 3231 10224 16075; CX 10225 9785 16077; CA 16078 16077 16076; CX 16076 9785 9784;
  CX 3231 9784 16074; CX 10224 9784 16073; CX 16075 9784 10288; CX 3296 10288 15827; CX 15827 10353 10864; CX 10864 10418 15577; CX 3361 10864 15579; CX 15579 10418 10928;
  CX 10928 10483 15329; CA 15578 15577 15576; CX 15576 10418 10417; CX 10288 10353 15825; CX 3360 10417 15574; CA 15330 15329 15328; CX 15328 10483 10482; CX 3426 10928 15331;
  CX 15331 10483 10992; CX 3491 10992 15083; CX 15083 10548 11056; CX 3556 11056 14835; CX 14835 10613 11120; CX 11056 10613 14833; CA 14834 14833 14832; CX 14832 10613 10612;
  CX 3555 10612 14830; CX 3621 11120 14587; CX 14587 10678 11184; CX 11120 10678 14585; CA 14586 14585 14584; CX 14584 10678 10677; CX 3620 10677 14582; CX 10992 10548 15081;
  CA 15082 15081 15080; CX 15080 10548 10547; CX 3686 11184 14339; CX 14339 10743 11248; CX 11248 10808 14089; CA 14090 14089 14088; CX 14088 10808 10807; CX 3750 10807 14086;
  CX 3751 11248 14091; CX 14091 10808 11312; CX 3816 11312 13843; CX 11184 10743 14337; CA 14338 14337 14336; CX 14336 10743 10742; CX 3685 10742 14334; CX 3425 10482 15326;
  CA 15826 15825 15824; CX 15824 10353 10352; CX 3295 10352 15822; CX 3222 10215 16039; CA 16074 16073 16072; CX 16072 9784 9783; CX 3230 9783 16070; CX 16071 9783 10287;
  CX 10223 9783 16069; CA 16070 16069 16068; CX 16068 9783 9782; CX 16067 9782 10286; CX 10222 9782 16065; CX 3294 10286 15819; CX 10287 10352 15821; CA 15822 15821 15820;
  CX 15820 10352 10351; CX 3294 10351 15818; CX 15819 10351 10862; CX 10286 10351 15817; CA 15818 15817 15816; CX 15816 10351 10350; CX 3293 10350 15814; CX 3359 10862 15571;
  CX 3295 10287 15823; CX 15823 10352 10863; CX 3360 10863 15575; CX 15575 10417 10927; CX 10863 10417 15573; CA 15574 15573 15572; CX 15572 10417 10416; CX 10862 10416 15569;
  CX 3359 10416 15570; CX 10927 10482 15325; CA 15326 15325 15324; CX 15324 10482 10481; CX 3425 10927 15327; CX 15327 10482 10991; CX 10991 10547 15077; CX 3490 10991 15079;
  CX 15079 10547 11055; CX 3555 11055 14831; CX 14831 10612 11119; CX 11055 10612 14829; CA 14830 14829 14828; CX 14828 10612 10611; CX 3554 10611 14826; CX 3620 11119 14583;
  CX 14583 10677 11183; CX 11119 10677 14581; CA 14582 14581 14580; CX 14580 10677 10676; CX 3619 10676 14578; CX 3424 10481 15322; CX 15571 10416 10926; CX 3424 10926 15323;
  CX 15323 10481 10990; CX 3489 10990 15075; CX 10926 10481 15321; CA 15322 15321 15320; CX 15320 10481 10480; CX 3423 10480 15318; CX 3685 11183 14335; CX 14335 10742 11247;
  CX 11247 10807 14085; CA 14086 14085 14084; CX 14084 10807 10806; CX 3749 10806 14082; CX 3750 11247 14087; CX 14087 10807 11311; CX 3815 11311 13839; CX 11183 10742 14333;
  CA 14334 14333 14332; CX 14332 10742 10741; CX 3684 10741 14330; CX 3229 9782 16066; CA 16066 16065 16064; CX 16064 9782 9781; CX 16063 9781 10285; CX 10285 10350 15813;
  CX 3293 10285 15815; CX 15815 10350 10861; CX 3358 10861 15567; CX 3228 9781 16062; CX 10221 9781 16061; CA 16062 16061 16060; CX 16060 9781 9780; CX 10220 9780 16057;
  CX 16059 9780 10284; CX 3292 10284 15811; CA 15814 15813 15812; CX 15812 10350 10349; CX 3292 10349 15810; CX 15811 10349 10860; CX 3357 10860 15563; CX 10284 10349 15809;
  CA 15810 15809 15808; CX 15808 10349 10348; CX 3291 10348 15806; CX 3227 9780 16058; CA 16058 16057 16056; CX 16056 9780 9779; CX 16055 9779 10283; CX 3291 10283 15807;
  CX 15807 10348 10859; CX 3356 10859 15559; CX 10283 10348 15805; CA 15806 15805 15804; CX 15804 10348 10347; CX 3290 10347 15802; CX 10219 9779 16053; CX 3226 9779 16054;
  CA 16054 16053 16052; CX 16052 9779 9778; CX 3225 9778 16050; CX 16051 9778 10282; CX 3290 10282 15803; CX 15803 10347 10858; CX 3355 10858 15555; CX 10282 10347 15801;
  CX 10218 9778 16049; CA 16050 16049 16048; CX 16048 9778 9777; CX 16047 9777 10281; CX 3224 9777 16046; CA 15802 15801 15800; CX 10217 9777 16045; CA 16046 16045 16044;
  CX 16044 9777 9776; CX 16043 9776 10280; CX 3223 9776 16042; CX 10216 9776 16041; CA 16042 16041 16040; CX 16040 9776 9775; CX 16039 9775 10279; CX 15800 10347 10346;
  CX 10281 10346 15797; CX 3289 10281 15799; CX 15799 10346 10857; CX 3354 10857 15551; CX 3289 10346 15798; CA 15798 15797 15796; CX 15796 10346 10345; CX 3288 10345 15794;
  CX 10280 10345 15793; CA 15794 15793 15792; CX 3288 10280 15795; CX 15795 10345 10856; CX 3353 10856 15547; CX 15792 10345 10344; CX 10279 10344 15789; CX 3287 10279 15791;
  CX 15791 10344 10855; CX 3352 10855 15543; CX 3287 10344 15790; CA 15790 15789 15788; CX 15788 10344 10343; CX 3286 10343 15786; CX 3490 10547 15078; CA 15078 15077 15076;
  CX 15076 10547 10546; CX 15075 10546 11054; CX 3489 10546 15074; CX 10990 10546 15073; CA 15074 15073 15072; CX 15072 10546 10545; CX 3488 10545 15070; CX 3554 11054 14827;
  CX 14827 10611 11118; CX 3619 11118 14579; CX 14579 10676 11182; CX 11182 10741 14329; CX 3684 11182 14331; CX 14331 10741 11246; CA 14330 14329 14328; CX 14328 10741 10740;
  CX 3749 11246 14083; CX 14083 10806 11310; CX 3814 11310 13835; CX 11246 10806 14081; CA 14082 14081 14080; CX 14080 10806 10805; CX 3748 10805 14078; CX 11118 10676 14577].
(** Lines 23205-23604 of the file. *)
Definition mult2_64_58 : list cg := [
  CA 14578 14577 14576; CX 14576 10676 10675; CX 3618 10675 14574; CX 3683 10740 14326; CX 11054 10611 14825; CA 14826 14825 14824; CX 14824 10611 10610; CX 3553 10610 14822;
  CX 3222 9775 16038; CX 10215 9775 16037; CA 16038 16037 16036; CX 16036 9775 9774; CX 10214 9774 16033; CX 3221 9774 16034; CA 16034 16033 16032; CX 16032 9774 9773;
  CX 16031 9773 10277; CX 10213 9773 16029; CX 3220 9773 16030; CA 16030 16029 16028; CX 16028 9773 9772; CX 10212 9772 16025; CX 3219 9772 16026; CA 16026 16025 16024;
  CX 16024 9772 9771; CX 16027 9772 10276; CX 3284 10276 15779; CX 3218 9771 16022; CX 3285 10277 15783; CX 16035 9774 10278; CX 3286 10278 15787; CX 15787 10343 10854;
  CX 10278 10343 15785; CX 3351 10854 15539; CA 15786 15785 15784; CX 15784 10343 10342; CX 15783 10342 10853; CX 3350 10853 15535; CX 10277 10342 15781; CX 3285 10342 15782;
  CA 15782 15781 15780; CX 15780 10342 10341; CX 15779 10341 10852; CX 3349 10852 15531; CX 10276 10341 15777; CX 3284 10341 15778; CA 15778 15777 15776; CX 15776 10341 10340;
  CX 3283 10340 15774; CA 15570 15569 15568; CX 15568 10416 10415; CX 15567 10415 10925; CX 10861 10415 15565; CX 3358 10415 15566; CA 15566 15565 15564; CX 15564 10415 10414;
  CX 10860 10414 15561; CX 15563 10414 10924; CX 3357 10414 15562; CA 15562 15561 15560; CX 15560 10414 10413; CX 10859 10413 15557; CX 15559 10413 10923; CX 3421 10923 15311;
  CX 3356 10413 15558; CA 15558 15557 15556; CX 15556 10413 10412; CX 15555 10412 10922; CX 3355 10412 15554; CX 10858 10412 15553; CA 15554 15553 15552; CX 15552 10412 10411;
  CX 15551 10411 10921; CX 10857 10411 15549; CX 3354 10411 15550; CA 15550 15549 15548; CX 15548 10411 10410; CX 3353 10410 15546; CX 10856 10410 15545; CA 15546 15545 15544;
  CX 15544 10410 10409; CX 3352 10409 15542; CX 10855 10409 15541; CA 15542 15541 15540; CX 15547 10410 10920; CX 3418 10920 15299; CX 15543 10409 10919; CX 3423 10925 15319;
  CX 15319 10480 10989; CX 10989 10545 15069; CA 15070 15069 15068; CX 15068 10545 10544; CX 3487 10544 15066; CX 3488 10989 15071; CX 15071 10545 11053; CX 11053 10610 14821;
  CA 14822 14821 14820; CX 14820 10610 10609; CX 3553 11053 14823; CX 3552 10609 14818; CX 10925 10480 15317; CA 15318 15317 15316; CX 15316 10480 10479; CX 3422 10479 15314;
  CX 3422 10924 15315; CX 15315 10479 10988; CX 3487 10988 15067; CX 10988 10544 15065; CA 15066 15065 15064; CX 15064 10544 10543; CX 15067 10544 11052; CX 11052 10609 14817;
  CX 3552 11052 14819; CX 14819 10609 11116; CA 14818 14817 14816; CX 3617 11116 14571; CX 10924 10479 15313; CA 15314 15313 15312; CX 15312 10479 10478; CX 3421 10478 15310;
  CX 15311 10478 10987; CX 10987 10543 15061; CX 3486 10987 15063; CX 15063 10543 11051; CX 3551 11051 14815; CX 3420 10922 15307; CX 10923 10478 15309; CA 15310 15309 15308;
  CX 15308 10478 10477; CX 10922 10477 15305; CX 15307 10477 10986; CX 3485 10986 15059; CX 3420 10477 15306; CA 15306 15305 15304; CX 15304 10477 10476; CX 3419 10921 15303;
  CX 15303 10476 10985; CX 3484 10985 15055; CX 10921 10476 15301; CX 3419 10476 15302; CA 15302 15301 15300; CX 15300 10476 10475; CX 15299 10475 10984; CX 3483 10984 15051;
  CX 10920 10475 15297; CX 3418 10475 15298; CA 15298 15297 15296; CX 15296 10475 10474; CX 3417 10474 15294; CX 3417 10919 15295; CX 15295 10474 10983; CX 3482 10983 15047;
  CX 10919 10474 15293; CA 15294 15293 15292; CX 15292 10474 10473; CX 3416 10473 15290; CX 3486 10543 15062; CA 15062 15061 15060; CX 15060 10543 10542; CX 10986 10542 15057;
  CX 3485 10542 15058; CA 15058 15057 15056; CX 15056 10542 10541; CX 3484 10541 15054; CX 10985 10541 15053; CA 15054 15053 15052; CX 15052 10541 10540; CX 3483 10540 15050;
  CX 15051 10540 11048; CX 3548 11048 14803; CX 10984 10540 15049; CA 15050 15049 15048; CX 15048 10540 10539; CX 3482 10539 15046; CX 10983 10539 15045; CA 15046 15045 15044;
  CX 15044 10539 10538; CX 3481 10538 15042; CX 15047 10539 11047; CX 3547 11047 14799; CX 15059 10542 11050; CX 3550 11050 14811; CX 15055 10541 11049; CX 3549 11049 14807;
  CX 14816 10609 10608; CX 14815 10608 11115; CX 11051 10608 14813; CX 3616 11115 14567; CX 3551 10608 14814; CA 14814 14813 14812; CX 14812 10608 10607; CX 11050 10607 14809;
  CX 14811 10607 11114; CX 3550 10607 14810; CA 14810 14809 14808; CX 14808 10607 10606; CX 14807 10606 11113; CX 3549 10606 14806; CX 3615 11114 14563; CX 3614 11113 14559;
  CX 11049 10606 14805; CA 14806 14805 14804; CX 14804 10606 10605; CX 14803 10605 11112; CX 11048 10605 14801; CX 3613 11112 14555; CX 3548 10605 14802; CA 14802 14801 14800;
  CX 14800 10605 10604; CX 11047 10604 14797; CX 14799 10604 11111; CX 3547 10604 14798; CA 14798 14797 14796; CX 14796 10604 10603; CX 3546 10603 14794; CX 3612 11111 14551;
  CX 14823 10610 11117; CX 3618 11117 14575; CX 14575 10675 11181; CX 11117 10675 14573; CA 14574 14573 14572; CX 14572 10675 10674; CX 14571 10674 11180; CX 3682 11180 14323;
  CX 3617 10674 14570; CX 11116 10674 14569; CA 14570 14569 14568; CX 14568 10674 10673; CX 14567 10673 11179; CX 3681 11179 14319; CX 3616 10673 14566; CX 11115 10673 14565;
  CA 14566 14565 14564; CX 14564 10673 10672; CX 14563 10672 11178; CX 3680 11178 14315; CX 3615 10672 14562; CX 11114 10672 14561; CA 14562 14561 14560; CX 14560 10672 10671;
  CX 14559 10671 11177; CX 3614 10671 14558; CX 11113 10671 14557; CA 14558 14557 14556; CX 14556 10671 10670; CX 14555 10670 11176; CX 3678 11176 14307; CX 3613 10670 14554;
  CX 11112 10670 14553; CA 14554 14553 14552; CX 14552 10670 10669; CX 14551 10669 11175; CX 3677 11175 14303; CX 3612 10669 14550; CX 11111 10669 14549; CA 14550 14549 14548;
  CX 14548 10669 10668; CX 3611 10668 14546; CX 3683 11181 14327; CX 14327 10740 11245; CX 3748 11245 14079; CX 14079 10805 11309; CX 3813 11309 13831; CX 11245 10805 14077;
  CA 14078 14077 14076; CX 14076 10805 10804; CX 3747 10804 14074; CX 11181 10740 14325; CA 14326 14325 14324; CX 14324 10740 10739; CX 14323 10739 11244; CX 11244 10804 14073;
  CA 14074 14073 14072; CX 14072 10804 10803; CX 3746 10803 14070; CX 3747 11244 14075; CX 14075 10804 11308; CX 3812 11308 13827; CX 11180 10739 14321; CX 3682 10739 14322;
  CA 14322 14321 14320; CX 14320 10739 10738; CX 3681 10738 14318; CX 11179 10738 14317; CX 14319 10738 11243; CX 11243 10803 14069; CA 14070 14069 14068; CX 3746 11243 14071;
  CX 14071 10803 11307; CX 3811 11307 13823; CX 14068 10803 10802; CX 3745 10802 14066; CA 14318 14317 14316; CX 14316 10738 10737; CX 11178 10737 14313; CX 14315 10737 11242;
  CX 3745 11242 14067; CX 14067 10802 11306; CX 3810 11306 13819; CX 11242 10802 14065; CA 14066 14065 14064; CX 14064 10802 10801; CX 3744 10801 14062; CX 3680 10737 14314;
  CA 14314 14313 14312; CX 14312 10737 10736; CX 11177 10736 14309; CX 3679 10736 14310; CA 14310 14309 14308; CX 14308 10736 10735; CX 14307 10735 11240; CX 3678 10735 14306;
  CX 11176 10735 14305; CA 14306 14305 14304; CX 14304 10735 10734; CX 14303 10734 11239; CX 3677 10734 14302; CX 11175 10734 14301; CA 14302 14301 14300; CX 14300 10734 10733;
  CX 3676 10733 14298; CX 3742 11239 14055; CX 3743 11240 14059; CX 3679 11177 14311; CX 14311 10736 11241; CX 3744 11241 14063; CX 14063 10801 11305; CX 3809 11305 13815;
  CX 11241 10801 14061; CA 14062 14061 14060; CX 14060 10801 10800; CX 11240 10800 14057; CX 3743 10800 14058; CA 14058 14057 14056; CX 14056 10800 10799; CX 14055 10799 11303;
  CX 3807 11303 13807; CX 3742 10799 14054; CX 14059 10800 11304; CX 3808 11304 13811; CX 11239 10799 14053; CA 14054 14053 14052; CX 14052 10799 10798; CX 3741 10798 14050;
  CX 15540 10409 10408; CX 15539 10408 10918; CX 10854 10408 15537; CX 3351 10408 15538; CA 15538 15537 15536; CX 15536 10408 10407; CX 15535 10407 10917; CX 3415 10917 15287;
  CX 10853 10407 15533; CX 3350 10407 15534; CA 15534 15533 15532; CX 15532 10407 10406; CX 15531 10406 10916; CX 3349 10406 15530; CX 10852 10406 15529; CA 15530 15529 15528;
  CX 15528 10406 10405; CX 3348 10405 15526; CX 10918 10473 15289; CA 15290 15289 15288; CX 15288 10473 10472; CX 10917 10472 15285; CX 15287 10472 10981; CX 3415 10472 15286;
  CA 15286 15285 15284; CX 15284 10472 10471; CX 3414 10471 15282; CX 3414 10916 15283; CX 15283 10471 10980; CX 3480 10981 15039; CX 10916 10471 15281; CA 15282 15281 15280;
  CX 15280 10471 10470; CX 3413 10470 15278; CX 3416 10918 15291; CX 15291 10473 10982; CX 3481 10982 15043; CX 15043 10538 11046; CX 10982 10538 15041; CX 11046 10603 14793;
  CA 14794 14793 14792; CX 14792 10603 10602; CX 3545 10602 14790; CA 15042 15041 15040; CX 15040 10538 10537; CX 3480 10537 15038; CX 3546 11046 14795; CX 14795 10603 11110;
  CX 15039 10537 11045; CX 3545 11045 14791; CX 14791 10602 11109; CX 10981 10537 15037; CA 15038 15037 15036; CX 11045 10602 14789; CA 14790 14789 14788; CX 14788 10602 10601].
(** Lines 23605-24004 of the file. *)
Definition mult2_64_59 : list cg := [
  CX 15036 10537 10536; CX 3479 10536 15034; CX 10980 10536 15033; CA 15034 15033 15032; CX 3544 10601 14786; CX 3611 11110 14547; CX 14547 10668 11174; CX 3676 11174 14299;
  CX 14299 10733 11238; CX 3741 11238 14051; CX 11174 10733 14297; CA 14298 14297 14296; CX 14296 10733 10732; CX 11238 10798 14049; CA 14050 14049 14048; CX 14048 10798 10797;
  CX 3740 10797 14046; CX 3675 10732 14294; CX 3610 11109 14543; CX 11110 10668 14545; CA 14546 14545 14544; CX 14544 10668 10667; CX 14543 10667 11173; CX 3675 11173 14295;
  CX 14295 10732 11237; CX 3740 11237 14047; CX 14047 10797 11301; CX 3805 11301 13799; CX 11237 10797 14045; CA 14046 14045 14044; CX 14044 10797 10796; CX 11173 10732 14293;
  CA 14294 14293 14292; CX 14292 10732 10731; CX 3674 10731 14290; CX 3739 10796 14042; CX 11109 10667 14541; CX 3610 10667 14542; CA 14542 14541 14540; CX 14540 10667 10666;
  CX 3609 10666 14538; CX 15032 10536 10535; CX 3478 10535 15030; CX 14051 10798 11302; CX 3806 11302 13803; CX 3479 10980 15035; CX 15035 10536 11044; CX 11044 10601 14785;
  CX 3544 11044 14787; CX 14787 10601 11108; CA 14786 14785 14784; CX 14784 10601 10600; CX 3609 11108 14539; CX 14539 10666 11172; CX 3674 11172 14291; CX 14291 10731 11236;
  CX 11172 10731 14289; CA 14290 14289 14288; CX 14288 10731 10730; CX 3673 10730 14286; CX 3739 11236 14043; CX 14043 10796 11300; CX 3804 11300 13795; CX 11236 10796 14041;
  CA 14042 14041 14040; CX 14040 10796 10795; CX 3738 10795 14038; CX 11108 10666 14537; CA 14538 14537 14536; CX 14536 10666 10665; CX 3608 10665 14534; CX 3543 10600 14782;
  CX 11317 11382 13861; CA 13862 13861 13860; CX 13860 11382 11381; CX 13859 11381 11827; CX 3820 11381 13858; CX 11316 11381 13857; CA 13858 13857 13856; CX 13856 11381 11380;
  CX 13855 11380 11826; CX 3819 11380 13854; CX 11315 11380 13853; CA 13854 13853 13852; CX 13852 11380 11379; CX 13851 11379 11825; CX 3818 11379 13850; CX 11314 11379 13849;
  CA 13850 13849 13848; CX 13848 11379 11378; CX 13847 11378 11824; CX 11313 11378 13845; CX 3817 11378 13846; CA 13846 13845 13844; CX 13844 11378 11377; CX 13843 11377 11823;
  CX 11312 11377 13841; CX 3816 11377 13842; CA 13842 13841 13840; CX 13840 11377 11376; CX 13839 11376 11822; CX 3815 11376 13838; CX 11311 11376 13837; CA 13838 13837 13836;
  CX 13836 11376 11375; CX 13835 11375 11821; CX 3814 11375 13834; CX 11310 11375 13833; CA 13834 13833 13832; CX 13832 11375 11374; CX 13831 11374 11820; CX 3813 11374 13830;
  CX 11309 11374 13829; CA 13830 13829 13828; CX 13828 11374 11373; CX 13827 11373 11819; CX 11308 11373 13825; CX 3812 11373 13826; CA 13826 13825 13824; CX 13824 11373 11372;
  CX 13823 11372 11818; CX 11307 11372 13821; CX 3811 11372 13822; CA 13822 13821 13820; CX 13820 11372 11371; CX 13819 11371 11817; CX 3810 11371 13818; CX 11306 11371 13817;
  CA 13818 13817 13816; CX 13816 11371 11370; CX 13815 11370 11816; CX 3809 11370 13814; CX 11305 11370 13813; CA 13814 13813 13812; CX 13812 11370 11369; CX 13811 11369 11815;
  CX 3808 11369 13810; CX 11304 11369 13809; CA 13810 13809 13808; CX 13808 11369 11368; CX 13807 11368 11814; CX 11303 11368 13805; CX 3807 11368 13806; CA 13806 13805 13804;
  CX 13804 11368 11367; CX 13803 11367 11813; CX 11302 11367 13801; CX 3806 11367 13802; CA 13802 13801 13800; CX 13800 11367 11366; CX 13799 11366 11812; CX 11301 11366 13797;
  CX 3805 11366 13798; CA 13798 13797 13796; CX 13796 11366 11365; CX 13795 11365 11811; CX 11300 11365 13793; CX 3804 11365 13794; CA 13794 13793 13792; CX 13792 11365 11364;
  CX 3803 11364 13790; CX 3885 11827 13611; CX 13611 11446 11891; CX 3884 11826 13607; CX 11827 11446 13609; CA 13610 13609 13608; CX 13608 11446 11445; CX 13607 11445 11890;
  CX 3883 11825 13603; CX 3884 11445 13606; CX 11826 11445 13605; CA 13606 13605 13604; CX 13604 11445 11444; CX 13603 11444 11889; CX 3882 11824 13599; CX 3883 11444 13602;
  CX 11825 11444 13601; CA 13602 13601 13600; CX 13600 11444 11443; CX 13599 11443 11888; CX 3881 11823 13595; CX 3882 11443 13598; CX 11824 11443 13597; CA 13598 13597 13596;
  CX 13596 11443 11442; CX 13595 11442 11887; CX 3880 11822 13591; CX 3881 11442 13594; CX 11823 11442 13593; CA 13594 13593 13592; CX 13592 11442 11441; CX 13591 11441 11886;
  CX 11822 11441 13589; CX 3879 11821 13587; CX 3880 11441 13590; CA 13590 13589 13588; CX 13588 11441 11440; CX 3879 11440 13586; CX 13587 11440 11885; CX 11821 11440 13585;
  CA 13586 13585 13584; CX 13584 11440 11439; CX 3878 11820 13583; CX 13583 11439 11884; CX 3877 11819 13579; CX 11820 11439 13581; CX 3878 11439 13582; CA 13582 13581 13580;
  CX 13580 11439 11438; CX 13579 11438 11883; CX 3876 11818 13575; CX 11819 11438 13577; CX 3877 11438 13578; CA 13578 13577 13576; CX 13576 11438 11437; CX 13575 11437 11882;
  CX 3875 11817 13571; CX 11818 11437 13573; CX 3876 11437 13574; CA 13574 13573 13572; CX 13572 11437 11436; CX 13571 11436 11881; CX 3874 11816 13567; CX 11817 11436 13569;
  CX 3875 11436 13570; CA 13570 13569 13568; CX 13568 11436 11435; CX 13567 11435 11880; CX 3873 11815 13563; CX 11816 11435 13565; CX 3874 11435 13566; CA 13566 13565 13564;
  CX 13564 11435 11434; CX 13563 11434 11879; CX 3872 11814 13559; CX 11815 11434 13561; CX 3873 11434 13562; CA 13562 13561 13560; CX 13560 11434 11433; CX 13559 11433 11878;
  CX 3871 11813 13555; CX 11814 11433 13557; CX 3872 11433 13558; CA 13558 13557 13556; CX 13556 11433 11432; CX 13555 11432 11877; CX 3870 11812 13551; CX 11813 11432 13553;
  CX 3871 11432 13554; CA 13554 13553 13552; CX 13552 11432 11431; CX 13551 11431 11876; CX 3869 11811 13547; CX 11812 11431 13549; CX 3870 11431 13550; CA 13550 13549 13548;
  CX 13548 11431 11430; CX 13547 11430 11875; CX 11811 11430 13545; CX 3869 11430 13546; CA 13546 13545 13544; CX 13544 11430 11429; CX 3868 11429 13542; CX 3950 11891 13363;
  CX 13363 11511 11955; CX 4015 11955 13115; CX 3949 11890 13359; CX 11891 11511 13361; CA 13362 13361 13360; CX 13360 11511 11510; CX 13359 11510 11954; CX 3948 11889 13355;
  CX 11890 11510 13357; CX 3949 11510 13358; CA 13358 13357 13356; CX 13356 11510 11509; CX 13355 11509 11953; CX 3947 11888 13351; CX 11889 11509 13353; CX 3948 11509 13354;
  CA 13354 13353 13352; CX 13352 11509 11508; CX 13351 11508 11952; CX 4012 11952 13103; CX 3946 11887 13347; CX 11888 11508 13349; CX 3945 11886 13343; CX 3947 11508 13350;
  CA 13350 13349 13348; CX 13348 11508 11507; CX 13347 11507 11951; CX 3946 11507 13346; CX 3944 11885 13339; CX 11887 11507 13345; CA 13346 13345 13344; CX 13344 11507 11506;
  CX 13343 11506 11950; CX 3945 11506 13342; CX 3943 11884 13335; CX 11886 11506 13341; CA 13342 13341 13340; CX 13340 11506 11505; CX 13339 11505 11949; CX 3944 11505 13338;
  CX 11885 11505 13337; CA 13338 13337 13336; CX 13336 11505 11504; CX 3943 11504 13334; CX 13335 11504 11948; CX 3942 11883 13331; CX 11884 11504 13333; CA 13334 13333 13332;
  CX 13332 11504 11503; CX 3942 11503 13330; CX 13331 11503 11947; CX 3941 11882 13327; CX 11883 11503 13329; CA 13330 13329 13328; CX 13328 11503 11502; CX 3941 11502 13326;
  CX 13327 11502 11946; CX 3940 11881 13323; CX 11882 11502 13325; CA 13326 13325 13324; CX 13324 11502 11501; CX 3940 11501 13322; CX 13323 11501 11945; CX 3938 11879 13315;
  CX 3939 11880 13319; CX 11881 11501 13321; CA 13322 13321 13320; CX 13320 11501 11500; CX 3939 11500 13318; CX 13319 11500 11944; CX 11880 11500 13317; CA 13318 13317 13316;
  CX 13316 11500 11499; CX 13315 11499 11943; CX 4003 11943 13067; CX 3937 11878 13311; CX 3938 11499 13314; CX 11879 11499 13313; CA 13314 13313 13312; CX 13312 11499 11498;
  CX 13311 11498 11942; CX 4002 11942 13063; CX 3936 11877 13307; CX 3937 11498 13310; CX 11878 11498 13309; CA 13310 13309 13308; CX 13308 11498 11497; CX 13307 11497 11941;
  CX 4001 11941 13059; CX 3935 11876 13303; CX 3936 11497 13306; CX 11877 11497 13305; CA 13306 13305 13304; CX 13304 11497 11496; CX 13303 11496 11940; CX 3934 11875 13299;
  CX 3935 11496 13302; CX 11876 11496 13301; CA 13302 13301 13300; CX 13300 11496 11495; CX 3934 11495 13298; CX 13299 11495 11939; CX 3999 11939 13051; CX 11875 11495 13297;
  CA 13298 13297 13296; CX 13296 11495 11494; CX 3933 11494 13294; CX 13115 11576 12019; CX 4080 12019 12867; CX 12867 11641 12083; CX 12019 11641 12865; CA 12866 12865 12864;
  CX 12864 11641 11640; CX 4079 11640 12862; CX 4145 12083 12619; CX 12083 11706 12617; CA 12618 12617 12616; CX 12616 11706 11705; CX 12619 11706 12147; CX 4144 11705 12614;
  CX 12147 11770 12369; CX 4210 12147 12371; CA 12370 12369 12368; CX 12371 11770 28043; CX 12368 11770 11769; CX 4209 11769 12366; CX 4014 11954 13111; CX 11955 11576 13113;
  CA 13114 13113 13112; CX 13112 11576 11575; CX 13111 11575 12018; CX 12018 11640 12861; CA 12862 12861 12860; CX 12860 11640 11639; CX 4079 12018 12863; CX 12863 11640 12082].
(** Lines 24005-24404 of the file. *)
Definition mult2_64_60 : list cg := [
  CX 4078 11639 12858; CX 4144 12082 12615; CX 12615 11705 12146; CX 12082 11705 12613; CA 12614 12613 12612; CX 12612 11705 11704; CX 4143 11704 12610; CX 12146 11769 12365;
  CX 4209 12146 12367; CX 12367 11769 28044; CA 12366 12365 12364; CX 12364 11769 11768; CX 4208 11768 12362; CX 11954 11575 13109; CX 4014 11575 13110; CA 13110 13109 13108;
  CX 13108 11575 11574; CX 11953 11574 13105; CX 4013 11953 13107; CX 13107 11574 12017; CX 12017 11639 12857; CA 12858 12857 12856; CX 12856 11639 11638; CX 4077 11638 12854;
  CX 4078 12017 12859; CX 12859 11639 12081; CX 12081 11704 12609; CX 4143 12081 12611; CX 12611 11704 12145; CX 12145 11768 12361; CA 12362 12361 12360; CX 12360 11768 11767;
  CX 4207 11767 12358; CX 4208 12145 12363; CX 12363 11768 28045; CA 12610 12609 12608; CX 12608 11704 11703; CX 4142 11703 12606; CX 4013 11574 13106; CA 13106 13105 13104;
  CX 13104 11574 11573; CX 13103 11573 12016; CX 4077 12016 12855; CX 12855 11638 12080; CX 12016 11638 12853; CA 12854 12853 12852; CX 12852 11638 11637; CX 4076 11637 12850;
  CX 11952 11573 13101; CX 4012 11573 13102; CX 4142 12080 12607; CX 12607 11703 12144; CX 4207 12144 12359; CX 12144 11767 12357; CX 12359 11767 28046; CA 12358 12357 12356;
  CX 12356 11767 11766; CX 4206 11766 12354; CX 12080 11703 12605; CA 12606 12605 12604; CX 12604 11703 11702; CX 4141 11702 12602; CA 13102 13101 13100; CX 13100 11573 11572;
  CX 4011 11572 13098; CX 4011 11951 13099; CX 13099 11572 12015; CX 12015 11637 12849; CA 12850 12849 12848; CX 4076 12015 12851; CX 12851 11637 12079; CX 12848 11637 11636;
  CX 4075 11636 12846; CX 4141 12079 12603; CX 12603 11702 12143; CX 12143 11766 12353; CA 12354 12353 12352; CX 12352 11766 11765; CX 4206 12143 12355; CX 12355 11766 28047;
  CX 12079 11702 12601; CA 12602 12601 12600; CX 12600 11702 11701; CX 4140 11701 12598; CX 11951 11572 13097; CA 13098 13097 13096; CX 13096 11572 11571; CX 4010 11571 13094;
  CX 11950 11571 13093; CA 13094 13093 13092; CX 13092 11571 11570; CX 4009 11570 13090; CX 4010 11950 13095; CX 13095 11571 12014; CX 4075 12014 12847; CX 12847 11636 12078;
  CX 12014 11636 12845; CA 12846 12845 12844; CX 12844 11636 11635; CX 4074 11635 12842; CX 4140 12078 12599; CX 12599 11701 12142; CX 4205 12142 12351; CX 12351 11765 28048;
  CX 12142 11765 12349; CX 12078 11701 12597; CA 12598 12597 12596; CX 12596 11701 11700; CX 4139 11700 12594; CX 4009 11949 13091; CX 13091 11570 12013; CX 4074 12013 12843;
  CX 12843 11635 12077; CX 12013 11635 12841; CA 12842 12841 12840; CX 12840 11635 11634; CX 4073 11634 12838; CX 4139 12077 12595; CX 12595 11700 12141; CX 4204 12141 12347;
  CX 12077 11700 12593; CA 12594 12593 12592; CX 12592 11700 11699; CX 4138 11699 12590; CX 11949 11570 13089; CA 13090 13089 13088; CX 13088 11570 11569; CX 4008 11569 13086;
  CX 4008 11948 13087; CX 13087 11569 12012; CX 4073 12012 12839; CX 12839 11634 12076; CX 12012 11634 12837; CA 12838 12837 12836; CX 12836 11634 11633; CX 4072 11633 12834;
  CX 4138 12076 12591; CX 12591 11699 12140; CX 4203 12140 12343; CX 12076 11699 12589; CA 12590 12589 12588; CX 12588 11699 11698; CX 4137 11698 12586; CX 11948 11569 13085;
  CA 13086 13085 13084; CX 13084 11569 11568; CX 11947 11568 13081; CX 4007 11568 13082; CA 13082 13081 13080; CX 4007 11947 13083; CX 13083 11568 12011; CX 4072 12011 12835;
  CX 12835 11633 12075; CX 12011 11633 12833; CA 12834 12833 12832; CX 12832 11633 11632; CX 4071 11632 12830; CX 4137 12075 12587; CX 12587 11698 12139; CX 4202 12139 12339;
  CX 12075 11698 12585; CA 12586 12585 12584; CX 12584 11698 11697; CX 4136 11697 12582; CX 13080 11568 11567; CX 11946 11567 13077; CX 4006 11567 13078; CX 4006 11946 13079;
  CX 13079 11567 12010; CX 4071 12010 12831; CX 12831 11632 12074; CX 12010 11632 12829; CA 12830 12829 12828; CX 12828 11632 11631; CX 4070 11631 12826; CX 12074 11697 12581;
  CA 12582 12581 12580; CX 4136 12074 12583; CX 12583 11697 12138; CX 4201 12138 12335; CA 13078 13077 13076; CX 13076 11567 11566; CX 4005 11945 13075; CX 11945 11566 13073;
  CX 13075 11566 12009; CX 4070 12009 12827; CX 12827 11631 12073; CX 12009 11631 12825; CA 12826 12825 12824; CX 12824 11631 11630; CX 4069 11630 12822; CX 4135 12073 12579;
  CX 4005 11566 13074; CA 13074 13073 13072; CX 13072 11566 11565; CX 4004 11565 13070; CX 11944 11565 13069; CA 13070 13069 13068; CX 4004 11944 13071; CX 13071 11565 12008;
  CX 4069 12008 12823; CX 12823 11630 12072; CX 12008 11630 12821; CA 12822 12821 12820; CX 12820 11630 11629; CX 4068 11629 12818; CX 4134 12072 12575; CX 4000 11940 13055;
  CX 4205 11765 12350; CA 12350 12349 12348; CX 12348 11765 11764; CX 12347 11764 28049; CX 12141 11764 12345; CX 4204 11764 12346; CA 12346 12345 12344; CX 12344 11764 11763;
  CX 4203 11763 12342; CX 12140 11763 12341; CA 12342 12341 12340; CX 12343 11763 28050; CX 12340 11763 11762; CX 4202 11762 12338; CX 12139 11762 12337; CX 12339 11762 28051;
  CA 12338 12337 12336; CX 12336 11762 11761; CX 12138 11761 12333; CX 4201 11761 12334; CA 12334 12333 12332; CX 12332 11761 11760; CX 4200 11760 12330; CX 13068 11565 11564;
  CX 4003 11564 13066; CX 11943 11564 13065; CA 13066 13065 13064; CX 13064 11564 11563; CX 13063 11563 12006; CX 4002 11563 13062; CX 11942 11563 13061; CA 13062 13061 13060;
  CX 13060 11563 11562; CX 4001 11562 13058; CX 4067 12006 12815; CX 13059 11562 12005; CX 4066 12005 12811; CX 11941 11562 13057; CA 13058 13057 13056; CX 13056 11562 11561;
  CX 4000 11561 13054; CX 11940 11561 13053; CA 13054 13053 13052; CX 13052 11561 11560; CX 13051 11560 12003; CX 4064 12003 12803; CX 3999 11560 13050; CX 11939 11560 13049;
  CA 13050 13049 13048; CX 13048 11560 11559; CX 3998 11559 13046; CX 13055 11561 12004; CX 4065 12004 12807; CX 13067 11564 12007; CX 4068 12007 12819; CX 12819 11629 12071;
  CX 4133 12071 12571; CX 12007 11629 12817; CA 12818 12817 12816; CX 12816 11629 11628; CX 12815 11628 12070; CX 4132 12070 12567; CX 4067 11628 12814; CX 12580 11697 11696;
  CX 12579 11696 12137; CX 12137 11760 12329; CA 12330 12329 12328; CX 12328 11760 11759; CX 4199 11759 12326; CX 12073 11696 12577; CX 4135 11696 12578; CA 12578 12577 12576;
  CX 12576 11696 11695; CX 12575 11695 12136; CX 12136 11759 12325; CX 12072 11695 12573; CX 4199 12136 12327; CX 4134 11695 12574; CA 12574 12573 12572; CX 12327 11759 28054;
  CA 12326 12325 12324; CX 12572 11695 11694; CX 4133 11694 12570; CX 12571 11694 12135; CX 4198 12135 12323; CX 12071 11694 12569; CA 12570 12569 12568; CX 12568 11694 11693;
  CX 12567 11693 12134; CX 4197 12134 12319; CX 12070 11693 12565; CX 4132 11693 12566; CA 12566 12565 12564; CX 12564 11693 11692; CX 4131 11692 12562; CX 12324 11759 11758;
  CX 4198 11758 12322; CX 12135 11758 12321; CX 12323 11758 28055; CX 4200 12137 12331; CX 12331 11760 28053; CA 12322 12321 12320; CX 12320 11758 11757; CX 12319 11757 28056;
  CX 4197 11757 12318; CX 12134 11757 12317; CA 12318 12317 12316; CX 12316 11757 11756; CX 4196 11756 12314; CX 12006 11628 12813; CA 12814 12813 12812; CX 12812 11628 11627;
  CX 12005 11627 12809; CX 4066 11627 12810; CA 12810 12809 12808; CX 12808 11627 11626; CX 4065 11626 12806; CX 12004 11626 12805; CX 12807 11626 12068; CA 12806 12805 12804;
  CX 12804 11626 11625; CX 4064 11625 12802; CX 12803 11625 12067; CX 12003 11625 12801; CA 12802 12801 12800; CX 12800 11625 11624; CX 4129 12067 12555; CX 4063 11624 12798;
  CX 12811 11627 12069; CX 4131 12069 12563; CX 12563 11692 12133; CX 4196 12133 12315; CX 12315 11756 28057; CX 12069 11692 12561; CA 12562 12561 12560; CX 12133 11756 12313;
  CA 12314 12313 12312; CX 12312 11756 11755; CX 4195 11755 12310; CX 12560 11692 11691; CX 12068 11691 12557; CX 4130 11691 12558; CA 12558 12557 12556; CX 12556 11691 11690;
  CX 4129 11690 12554; CX 12067 11690 12553; CA 12554 12553 12552; CX 12555 11690 12131; CX 12552 11690 11689; CX 4128 11689 12550; CX 4194 12131 12307; CX 4130 12068 12559;
  CX 12559 11691 12132; CX 12132 11755 12309; CX 4195 12132 12311; CX 12311 11755 28058; CA 12310 12309 12308; CX 12308 11755 11754; CX 12131 11754 12305; CX 12307 11754 28059;
  CX 4194 11754 12306; CA 12306 12305 12304; CX 12304 11754 11753; CX 4193 11753 12302; CX 12335 11761 28052; CX 2309 8358 19498; CA 19498 19497 19496; CX 19496 8358 8357;
  CX 8803 8357 19493; CX 2308 8357 19494; CA 19494 19493 19492; CX 19495 8357 8867; CX 8867 8422 19245; CX 2373 8867 19247; CX 19247 8422 8931; CA 19246 19245 19244;
  CX 19244 8422 8421; CX 2372 8421 19242; CX 2438 8931 18999; CX 18999 8487 8995; CX 8931 8487 18997; CA 18998 18997 18996; CX 18996 8487 8486; CX 2437 8486 18994;
  CX 8995 8552 18749; CA 18750 18749 18748; CX 2503 8995 18751; CX 18751 8552 9059; CX 18748 8552 8551; CX 2502 8551 18746; CX 2568 9059 18503; CX 18503 8617 9123].
(** Lines 24405-24804 of the file. *)
Definition mult2_64_61 : list cg := [
  CX 9059 8617 18501; CA 18502 18501 18500; CX 18500 8617 8616; CX 2567 8616 18498; CX 2633 9123 18255; CX 18255 8682 9187; CX 9123 8682 18253; CA 18254 18253 18252;
  CX 18252 8682 8681; CX 2632 8681 18250; CX 2698 9187 18007; CX 18007 8747 9251; CX 9187 8747 18005; CA 18006 18005 18004; CX 18004 8747 8746; CX 2697 8746 18002;
  CX 2763 9251 17759; CX 9251 9316 17757; CX 17759 9316 9827; CA 17758 17757 17756; CX 17756 9316 9315; CX 2762 9315 17754; CX 19492 8357 8356; CX 2307 8356 19490;
  CX 19491 8356 8866; CX 8866 8421 19241; CX 2372 8866 19243; CX 19243 8421 8930; CA 19242 19241 19240; CX 19240 8421 8420; CX 2371 8420 19238; CX 2437 8930 18995;
  CX 18995 8486 8994; CX 8930 8486 18993; CA 18994 18993 18992; CX 18992 8486 8485; CX 2436 8485 18990; CX 8994 8551 18745; CA 18746 18745 18744; CX 2502 8994 18747;
  CX 18747 8551 9058; CX 18744 8551 8550; CX 2501 8550 18742; CX 2567 9058 18499; CX 18499 8616 9122; CX 9058 8616 18497; CA 18498 18497 18496; CX 18496 8616 8615;
  CX 2566 8615 18494; CX 2632 9122 18251; CX 18251 8681 9186; CX 9122 8681 18249; CA 18250 18249 18248; CX 18248 8681 8680; CX 2631 8680 18246; CX 2697 9186 18003;
  CX 18003 8746 9250; CX 9186 8746 18001; CA 18002 18001 18000; CX 18000 8746 8745; CX 2696 8745 17998; CX 2762 9250 17755; CX 9250 9315 17753; CX 17755 9315 9826;
  CA 17754 17753 17752; CX 17752 9315 9314; CX 2761 9314 17750; CX 8802 8356 19489; CA 19490 19489 19488; CX 19488 8356 8355; CX 8801 8355 19485; CX 2306 8355 19486;
  CA 19486 19485 19484; CX 19484 8355 8354; CX 2305 8354 19482; CX 19487 8355 8865; CX 8865 8420 19237; CX 2371 8865 19239; CX 19239 8420 8929; CA 19238 19237 19236;
  CX 19236 8420 8419; CX 2370 8419 19234; CX 2436 8929 18991; CX 18991 8485 8993; CX 8929 8485 18989; CA 18990 18989 18988; CX 18988 8485 8484; CX 2435 8484 18986;
  CX 8993 8550 18741; CA 18742 18741 18740; CX 2501 8993 18743; CX 18743 8550 9057; CX 18740 8550 8549; CX 2500 8549 18738; CX 2566 9057 18495; CX 18495 8615 9121;
  CX 9057 8615 18493; CA 18494 18493 18492; CX 18492 8615 8614; CX 2565 8614 18490; CX 2631 9121 18247; CX 18247 8680 9185; CX 9121 8680 18245; CA 18246 18245 18244;
  CX 18244 8680 8679; CX 2630 8679 18242; CX 2696 9185 17999; CX 17999 8745 9249; CX 9185 8745 17997; CA 17998 17997 17996; CX 17996 8745 8744; CX 2695 8744 17994;
  CX 2761 9249 17751; CX 9249 9314 17749; CX 17751 9314 9825; CA 17750 17749 17748; CX 17748 9314 9313; CX 2760 9313 17746; CX 19483 8354 8864; CX 8864 8419 19233;
  CX 2370 8864 19235; CX 19235 8419 8928; CA 19234 19233 19232; CX 19232 8419 8418; CX 2369 8418 19230; CX 2435 8928 18987; CX 18987 8484 8992; CX 8928 8484 18985;
  CA 18986 18985 18984; CX 18984 8484 8483; CX 2434 8483 18982; CX 8992 8549 18737; CA 18738 18737 18736; CX 2500 8992 18739; CX 18739 8549 9056; CX 18736 8549 8548;
  CX 2499 8548 18734; CX 2565 9056 18491; CX 18491 8614 9120; CX 9056 8614 18489; CA 18490 18489 18488; CX 18488 8614 8613; CX 2564 8613 18486; CX 2630 9120 18243;
  CX 18243 8679 9184; CX 9120 8679 18241; CA 18242 18241 18240; CX 18240 8679 8678; CX 2629 8678 18238; CX 2695 9184 17995; CX 17995 8744 9248; CX 9184 8744 17993;
  CA 17994 17993 17992; CX 17992 8744 8743; CX 2694 8743 17990; CX 2760 9248 17747; CX 9248 9313 17745; CX 17747 9313 9824; CA 17746 17745 17744; CX 17744 9313 9312;
  CX 2759 9312 17742; CX 2828 9827 17511; CX 17511 9381 9891; CX 9827 9381 17509; CA 17510 17509 17508; CX 17508 9381 9380; CX 2827 9380 17506; CX 2827 9826 17507;
  CX 17507 9380 9890; CX 2826 9825 17503; CX 9826 9380 17505; CA 17506 17505 17504; CX 17504 9380 9379; CX 2826 9379 17502; CX 17503 9379 9889; CX 2825 9824 17499;
  CX 9825 9379 17501; CA 17502 17501 17500; CX 17500 9379 9378; CX 2825 9378 17498; CX 17499 9378 9888; CX 9824 9378 17497; CA 17498 17497 17496; CX 17496 9378 9377;
  CX 2824 9377 17494; CX 2893 9891 17263; CX 17263 9446 9955; CX 9891 9446 17261; CA 17262 17261 17260; CX 17260 9446 9445; CX 2892 9890 17259; CX 2892 9445 17258;
  CX 17259 9445 9954; CX 2957 9954 17011; CX 9890 9445 17257; CA 17258 17257 17256; CX 17256 9445 9444; CX 2891 9889 17255; CX 17255 9444 9953; CX 9889 9444 17253;
  CX 2890 9888 17251; CX 8800 8354 19481; CA 19482 19481 19480; CX 19480 8354 8353; CX 2304 8353 19478; CX 8799 8353 19477; CA 19478 19477 19476; CX 19476 8353 8352;
  CX 19475 8352 8862; CX 2303 8352 19474; CX 2368 8862 19227; CX 19479 8353 8863; CX 2369 8863 19231; CX 19231 8418 8927; CX 2434 8927 18983; CX 18983 8483 8991;
  CX 8927 8483 18981; CA 18982 18981 18980; CX 18980 8483 8482; CX 2433 8482 18978; CX 8991 8548 18733; CA 18734 18733 18732; CX 2499 8991 18735; CX 18735 8548 9055;
  CX 18732 8548 8547; CX 2498 8547 18730; CX 2564 9055 18487; CX 18487 8613 9119; CX 9055 8613 18485; CA 18486 18485 18484; CX 18484 8613 8612; CX 2563 8612 18482;
  CX 2629 9119 18239; CX 18239 8678 9183; CX 9119 8678 18237; CA 18238 18237 18236; CX 18236 8678 8677; CX 2628 8677 18234; CX 2694 9183 17991; CX 17991 8743 9247;
  CX 8863 8418 19229; CA 19230 19229 19228; CX 19228 8418 8417; CX 9183 8743 17989; CA 17990 17989 17988; CX 17988 8743 8742; CX 2693 8742 17986; CX 19227 8417 8926;
  CX 2433 8926 18979; CX 18979 8482 8990; CX 8926 8482 18977; CA 18978 18977 18976; CX 18976 8482 8481; CX 2432 8481 18974; CX 8990 8547 18729; CA 18730 18729 18728;
  CX 2498 8990 18731; CX 18731 8547 9054; CX 18728 8547 8546; CX 2497 8546 18726; CX 2563 9054 18483; CX 18483 8612 9118; CX 9054 8612 18481; CA 18482 18481 18480;
  CX 18480 8612 8611; CX 2562 8611 18478; CX 2628 9118 18235; CX 18235 8677 9182; CX 9118 8677 18233; CA 18234 18233 18232; CX 18232 8677 8676; CX 2627 8676 18230;
  CX 2693 9182 17987; CX 17987 8742 9246; CX 9182 8742 17985; CA 17986 17985 17984; CX 17984 8742 8741; CX 2692 8741 17982; CX 2759 9247 17743; CX 8862 8417 19225;
  CX 9247 9312 17741; CX 2758 9246 17739; CX 17743 9312 9823; CA 17742 17741 17740; CX 17740 9312 9311; CX 9246 9311 17737; CX 2758 9311 17738; CX 17739 9311 9822;
  CA 17738 17737 17736; CX 17736 9311 9310; CX 2757 9310 17734; CX 2368 8417 19226; CA 19226 19225 19224; CX 19224 8417 8416; CX 2367 8416 19222; CX 2824 9823 17495;
  CX 17495 9377 9887; CX 2823 9822 17491; CX 9823 9377 17493; CA 17494 17493 17492; CX 17492 9377 9376; CX 2823 9376 17490; CX 17491 9376 9886; CX 9822 9376 17489;
  CA 17490 17489 17488; CX 17488 9376 9375; CX 2822 9375 17486; CX 2889 9887 17247; CX 2888 9886 17243; CX 8287 8352 19473; CA 19474 19473 19472; CX 19472 8352 8351;
  CX 2367 8351 19223; CX 19223 8416 8925; CX 2432 8925 18975; CX 18975 8481 8989; CX 8925 8481 18973; CA 18974 18973 18972; CX 18972 8481 8480; CX 2431 8480 18970;
  CX 8989 8546 18725; CA 18726 18725 18724; CX 2497 8989 18727; CX 18727 8546 9053; CX 18724 8546 8545; CX 2496 8545 18722; CX 2562 9053 18479; CX 18479 8611 9117;
  CX 9053 8611 18477; CA 18478 18477 18476; CX 18476 8611 8610; CX 2561 8610 18474; CX 2627 9117 18231; CX 18231 8676 9181; CX 9117 8676 18229; CA 18230 18229 18228;
  CX 18228 8676 8675; CX 2626 8675 18226; CX 2692 9181 17983; CX 17983 8741 9245; CX 9181 8741 17981; CA 17982 17981 17980; CX 17980 8741 8740; CX 2691 8740 17978;
  CX 2757 9245 17735; CX 9245 9310 17733; CX 17735 9310 9821; CA 17734 17733 17732; CX 17732 9310 9309; CX 2756 9309 17730; CX 8351 8416 19221; CA 19222 19221 19220;
  CX 19220 8416 8415; CX 2431 8415 18971; CX 18971 8480 8988; CX 8415 8480 18969; CA 18970 18969 18968; CX 18968 8480 8479; CX 8988 8545 18721; CA 18722 18721 18720;
  CX 2496 8988 18723; CX 18723 8545 9052; CX 18720 8545 8544; CX 2495 8544 18718; CX 8479 8544 18717; CA 18718 18717 18716; CX 2495 8479 18719; CX 18719 8544 9051;
  CX 18716 8544 8543; CX 2561 9052 18475; CX 18475 8610 9116; CX 2560 9051 18471; CX 2559 8543 18467; CX 9052 8610 18473; CA 18474 18473 18472; CX 18472 8610 8609;
  CX 18471 8609 9115; CX 2560 8609 18470; CX 9051 8609 18469; CA 18470 18469 18468; CX 18468 8609 8608; CX 18467 8608 9114; CX 2559 8608 18466; CX 8543 8608 18465;
  CA 18466 18465 18464; CX 18464 8608 8607; CX 2626 9116 18227; CX 18227 8675 9180; CX 9180 8740 17977; CX 2625 9115 18223; CX 9116 8675 18225; CA 18226 18225 18224;
  CX 18224 8675 8674; CX 18223 8674 9179; CX 2625 8674 18222; CX 9115 8674 18221; CA 18222 18221 18220; CX 18220 8674 8673; CX 2624 9114 18219; CX 18219 8673 9178].
(** Lines 24805-25204 of the file. *)
Definition mult2_64_62 : list cg := [
  CX 2624 8673 18218; CX 9114 8673 18217; CA 18218 18217 18216; CX 18216 8673 8672; CX 2623 8607 18215; CX 18215 8672 9177; CX 2623 8672 18214; CX 8607 8672 18213;
  CA 18214 18213 18212; CX 18212 8672 8671; CX 2691 9180 17979; CX 17979 8740 9244; CX 2690 9179 17975; CA 17978 17977 17976; CX 17976 8740 8739; CX 2690 8739 17974;
  CX 17975 8739 9243; CX 9179 8739 17973; CA 17974 17973 17972; CX 17972 8739 8738; CX 9178 8738 17969; CX 2689 9178 17971; CX 17971 8738 9242; CX 2688 9177 17967;
  CX 2689 8738 17970; CA 17970 17969 17968; CX 17968 8738 8737; CX 17967 8737 9241; CX 2687 8671 17963; CX 9177 8737 17965; CX 2688 8737 17966; CA 17966 17965 17964;
  CX 17964 8737 8736; CX 17963 8736 9240; CX 8671 8736 17961; CX 2687 8736 17962; CA 17962 17961 17960; CX 17960 8736 8735; CX 9244 9309 17729; CX 2756 9244 17731;
  CX 17731 9309 9820; CA 17730 17729 17728; CX 17728 9309 9308; CX 9243 9308 17725; CX 2755 9243 17727; CX 17727 9308 9819; CX 2755 9308 17726; CA 17726 17725 17724;
  CX 17724 9308 9307; CX 2754 9242 17723; CX 17723 9307 9818; CX 2752 9240 17715; CX 9242 9307 17721; CX 2753 9241 17719; CX 2754 9307 17722; CA 17722 17721 17720;
  CX 17720 9307 9306; CX 2753 9306 17718; CX 17719 9306 9817; CX 2751 8735 17711; CX 9241 9306 17717; CA 17718 17717 17716; CX 17716 9306 9305; CX 17715 9305 9816;
  CX 2752 9305 17714; CX 9240 9305 17713; CA 17714 17713 17712; CX 17712 9305 9304; CX 17711 9304 9815; CX 2751 9304 17710; CX 8735 9304 17709; CA 17710 17709 17708;
  CX 17708 9304 9303; CX 2822 9821 17487; CX 17487 9375 9885; CX 2821 9820 17483; CX 9821 9375 17485; CA 17486 17485 17484; CX 17484 9375 9374; CX 2821 9374 17482;
  CX 17483 9374 9884; CX 2820 9819 17479; CX 9820 9374 17481; CA 17482 17481 17480; CX 17480 9374 9373; CX 2820 9373 17478; CX 17479 9373 9883; CX 2885 9883 17231;
  CX 2819 9818 17475; CX 9819 9373 17477; CA 17478 17477 17476; CX 17476 9373 9372; CX 17475 9372 9882; CX 2818 9817 17471; CX 2819 9372 17474; CX 9818 9372 17473;
  CA 17474 17473 17472; CX 17472 9372 9371; CX 17471 9371 9881; CX 2817 9816 17467; CX 2818 9371 17470; CX 9817 9371 17469; CA 17470 17469 17468; CX 17468 9371 9370;
  CX 17467 9370 9880; CX 2882 9880 17219; CX 2816 9815 17463; CX 2817 9370 17466; CX 9816 9370 17465; CA 17466 17465 17464; CX 17464 9370 9369; CX 17463 9369 9879;
  CX 2815 9303 17459; CX 2816 9369 17462; CX 9815 9369 17461; CA 17462 17461 17460; CX 17460 9369 9368; CX 17459 9368 9878; CX 2815 9368 17458; CX 9303 9368 17457;
  CA 17458 17457 17456; CX 17456 9368 9367; CX 2887 9885 17239; CX 2886 9884 17235; CX 2884 9882 17227; CX 2883 9881 17223; CX 2881 9879 17215; CX 2880 9878 17211;
  CX 2879 9367 17207; CX 2958 9955 17015; CX 17015 9511 10019; CX 3023 10019 16767; CX 16767 9576 10083; CX 10019 9576 16765; CA 16766 16765 16764; CX 16764 9576 9575;
  CX 3088 10083 16519; CX 16519 9641 10147; CX 3022 9575 16762; CX 10083 9641 16517; CA 16518 16517 16516; CX 16516 9641 9640; CX 3087 9640 16514; CX 3153 10147 16271;
  CX 16271 9706 10211; CX 10147 9706 16269; CA 16270 16269 16268; CX 16268 9706 9705; CX 3152 9705 16266; CX 3218 10211 16023; CX 16023 9771 10275; CX 3283 10275 15775;
  CX 10275 10340 15773; CX 10211 9771 16021; CA 16022 16021 16020; CX 16020 9771 9770; CX 3217 9770 16018; CA 15774 15773 15772; CX 15772 10340 10339; CX 3282 10339 15770;
  CX 9955 9511 17013; CA 17014 17013 17012; CX 17012 9511 9510; CX 9954 9510 17009; CX 17011 9510 10018; CX 3022 10018 16763; CX 16763 9575 10082; CX 10018 9575 16761;
  CA 16762 16761 16760; CX 16760 9575 9574; CX 3087 10082 16515; CX 16515 9640 10146; CX 10082 9640 16513; CA 16514 16513 16512; CX 16512 9640 9639; CX 3086 9639 16510;
  CX 3021 9574 16758; CX 3152 10146 16267; CX 16267 9705 10210; CX 10146 9705 16265; CA 16266 16265 16264; CX 16264 9705 9704; CX 3151 9704 16262; CX 3217 10210 16019;
  CX 16019 9770 10274; CX 10274 10339 15769; CX 3282 10274 15771; CX 15771 10339 10850; CA 15770 15769 15768; CX 15768 10339 10338; CX 3347 10850 15523; CX 3281 10338 15766;
  CX 10210 9770 16017; CA 16018 16017 16016; CX 16016 9770 9769; CX 3216 9769 16014; CX 2957 9510 17010; CA 17010 17009 17008; CX 17008 9510 9509; CX 2956 9509 17006;
  CX 2956 9953 17007; CX 17007 9509 10017; CX 3021 10017 16759; CX 16759 9574 10081; CX 10081 9639 16509; CA 16510 16509 16508; CX 16508 9639 9638; CX 3086 10081 16511;
  CX 16511 9639 10145; CX 10017 9574 16757; CA 16758 16757 16756; CX 16756 9574 9573; CX 3085 9638 16506; CX 3020 9573 16754; CX 3151 10145 16263; CX 16263 9704 10209;
  CX 3216 10209 16015; CX 10209 9769 16013; CA 16014 16013 16012; CX 16012 9769 9768; CX 3215 9768 16010; CX 10145 9704 16261; CA 16262 16261 16260; CX 16260 9704 9703;
  CX 3150 9703 16258; CX 16015 9769 10273; CX 10273 10338 15765; CA 15766 15765 15764; CX 15764 10338 10337; CX 3280 10337 15762; CX 9953 9509 17005; CA 17006 17005 17004;
  CX 17004 9509 9508; CX 2955 9508 17002; CX 3281 10273 15767; CX 15767 10338 10849; CX 3346 10849 15519; CX 15775 10340 10851; CX 10851 10405 15525; CA 15526 15525 15524;
  CX 15524 10405 10404; CX 10850 10404 15521; CX 3347 10404 15522; CA 15522 15521 15520; CX 15520 10404 10403; CX 15519 10403 10913; CX 3411 10913 15271; CX 15523 10404 10914;
  CX 3412 10914 15275; CX 3348 10851 15527; CX 15527 10405 10915; CX 3413 10915 15279; CX 15279 10470 10979; CX 10979 10535 15029; CA 15030 15029 15028; CX 15028 10535 10534;
  CX 3477 10534 15026; CX 3478 10979 15031; CX 15031 10535 11043; CX 11043 10600 14781; CX 10915 10470 15277; CX 3543 11043 14783; CA 14782 14781 14780; CA 15278 15277 15276;
  CX 15276 10470 10469; CX 3412 10469 15274; CX 15275 10469 10978; CX 10978 10534 15025; CX 3477 10978 15027; CA 15026 15025 15024; CX 15024 10534 10533; CX 15027 10534 11042;
  CX 3542 11042 14779; CX 10914 10469 15273; CA 15274 15273 15272; CX 15272 10469 10468; CX 15271 10468 10977; CX 3476 10533 15022; CX 3476 10977 15023; CX 15023 10533 11041;
  CX 10977 10533 15021; CA 15022 15021 15020; CX 15020 10533 10532; CX 3475 10532 15018; CX 3411 10468 15270; CX 10913 10468 15269; CA 15270 15269 15268; CX 15268 10468 10467;
  CX 3410 10467 15266; CX 3541 11041 14775; CX 10849 10403 15517; CX 14783 10600 11107; CX 3608 11107 14535; CX 14535 10665 11171; CX 3673 11171 14287; CX 14287 10730 11235;
  CX 11235 10795 14037; CA 14038 14037 14036; CX 14036 10795 10794; CX 3737 10794 14034; CX 11171 10730 14285; CX 3738 11235 14039; CX 14039 10795 11299; CX 3803 11299 13791;
  CX 13791 11364 11810; CX 3868 11810 13543; CX 13543 11429 11874; CX 11810 11429 13541; CA 13542 13541 13540; CX 13540 11429 11428; CX 3867 11428 13538; CX 11299 11364 13789;
  CA 13790 13789 13788; CX 13788 11364 11363; CX 3802 11363 13786; CX 11107 10665 14533; CA 14534 14533 14532; CX 14532 10665 10664; CX 3607 10664 14530; CX 3933 11874 13295;
  CX 13295 11494 11938; CX 3998 11938 13047; CX 13047 11559 12002; CX 4063 12002 12799; CX 12799 11624 12066; CX 11938 11559 13045; CA 13046 13045 13044; CX 12066 11689 12549;
  CA 12550 12549 12548; CX 13044 11559 11558; CX 3997 11558 13042; CX 12548 11689 11688; CX 4127 11688 12546; CX 12002 11624 12797; CA 12798 12797 12796; CX 12796 11624 11623;
  CA 14286 14285 14284; CX 14284 10730 10729; CX 3672 10729 14282; CX 11874 11494 13293; CA 13294 13293 13292; CX 13292 11494 11493; CX 3932 11493 13290; CX 14780 10600 10599;
  CX 3542 10599 14778; CX 11042 10599 14777; CA 14778 14777 14776; CX 14776 10599 10598; CX 14775 10598 11105; CX 14779 10599 11106; CX 11041 10598 14773; CX 3607 11106 14531;
  CX 14531 10664 11170; CX 3672 11170 14283; CX 14283 10729 11234; CX 3737 11234 14035; CX 11234 10794 14033; CX 14035 10794 11298; CA 14034 14033 14032; CX 3802 11298 13787;
  CX 13787 11363 11809; CX 3867 11809 13539; CX 13539 11428 11873; CX 11809 11428 13537; CA 13538 13537 13536; CX 13536 11428 11427; CX 3866 11427 13534; CX 11298 11363 13785;
  CA 13786 13785 13784; CX 13784 11363 11362; CX 3801 11362 13782; CX 11170 10729 14281; CA 14282 14281 14280; CX 14280 10729 10728; CX 3606 11105 14527; CX 11106 10664 14529;
  CA 14530 14529 14528; CX 14528 10664 10663; CX 14527 10663 11169; CX 3671 11169 14279; CX 11105 10663 14525; CX 3606 10663 14526; CA 14526 14525 14524; CX 14524 10663 10662;
  CX 3605 10662 14522; CX 14032 10794 10793; CX 3736 10793 14030; CX 3671 10728 14278; CX 11169 10728 14277; CA 14278 14277 14276; CX 14276 10728 10727; CX 3541 10598 14774;
  CA 14774 14773 14772; CX 14772 10598 10597; CX 3540 10597 14770; CX 3932 11873 13291; CX 11873 11493 13289; CA 13290 13289 13288; CX 13288 11493 11492; CX 3931 11492 13286].
(** Lines 25205-25604 of the file. *)
Definition mult2_64_63 : list cg := [
  CX 13291 11493 11937; CX 3997 11937 13043; CX 13043 11558 12001; CX 4062 12001 12795; CX 12795 11623 12065; CX 12065 11688 12545; CX 12001 11623 12793; CX 11937 11558 13041;
  CA 13042 13041 13040; CX 13040 11558 11557; CX 3996 11557 13038; CX 4127 12065 12547; CX 12547 11688 12129; CX 4192 12129 12299; CX 3670 10727 14274; CX 3346 10403 15518;
  CA 15518 15517 15516; CX 15516 10403 10402; CX 3345 10402 15514; CX 4062 11623 12794; CA 12794 12793 12792; CX 12792 11623 11622; CX 4061 11622 12790; CX 4128 12066 12551;
  CX 12551 11689 12130; CX 4193 12130 12303; CX 12303 11753 28060; CX 12130 11753 12301; CA 12302 12301 12300; CX 12300 11753 11752; CX 4192 11752 12298; CX 12299 11752 28061;
  CX 12129 11752 12297; CA 12298 12297 12296; CX 12296 11752 11751; CX 4191 11751 12294; CX 2891 9444 17254; CA 17254 17253 17252; CX 17252 9444 9443; CX 9888 9443 17249;
  CX 17251 9443 9952; CX 2890 9443 17250; CA 17250 17249 17248; CX 17248 9443 9442; CX 2889 9442 17246; CX 9887 9442 17245; CA 17246 17245 17244; CX 17244 9442 9441;
  CX 17243 9441 9950; CX 9886 9441 17241; CX 2888 9441 17242; CA 17242 17241 17240; CX 17240 9441 9440; CX 17239 9440 9949; CX 2887 9440 17238; CX 2952 9949 16991;
  CX 17247 9442 9951; CX 2955 9952 17003; CX 17003 9508 10016; CX 3020 10016 16755; CX 16755 9573 10080; CX 3085 10080 16507; CX 16507 9638 10144; CX 10080 9638 16505;
  CA 16506 16505 16504; CX 16504 9638 9637; CX 3084 9637 16502; CX 10016 9573 16753; CX 3150 10144 16259; CX 16259 9703 10208; CX 10208 9768 16009; CX 3215 10208 16011;
  CX 10144 9703 16257; CA 16258 16257 16256; CX 16256 9703 9702; CX 3149 9702 16254; CX 16011 9768 10272; CX 10272 10337 15761; CA 15762 15761 15760; CX 3280 10272 15763;
  CX 15763 10337 10848; CX 15760 10337 10336; CX 3279 10336 15758; CA 16754 16753 16752; CX 16752 9573 9572; CX 3019 9572 16750; CX 10848 10402 15513; CA 15514 15513 15512;
  CX 15512 10402 10401; CX 3344 10401 15510; CX 3345 10848 15515; CX 15515 10402 10912; CX 3410 10912 15267; CX 10912 10467 15265; CA 15266 15265 15264; CX 15264 10467 10466;
  CX 15267 10467 10976; CX 10976 10532 15017; CA 15018 15017 15016; CX 15016 10532 10531; CX 9952 9508 17001; CX 2954 9951 16999; CA 17002 17001 17000; CX 17000 9508 9507;
  CX 16999 9507 10015; CX 3019 10015 16751; CX 16751 9572 10079; CX 3084 10079 16503; CX 16503 9637 10143; CX 10079 9637 16501; CA 16502 16501 16500; CX 16500 9637 9636;
  CX 3083 9636 16498; CX 3149 10143 16255; CX 16255 9702 10207; CX 10143 9702 16253; CA 16254 16253 16252; CX 16252 9702 9701; CX 3148 9701 16250; CX 3214 10207 16007;
  CX 9951 9507 16997; CX 2954 9507 16998; CA 16998 16997 16996; CX 16996 9507 9506; CX 2953 9950 16995; CX 16995 9506 10014; CX 3018 10014 16747; CX 2953 9506 16994;
  CX 9950 9506 16993; CA 16994 16993 16992; CX 16992 9506 9505; CX 16991 9505 10013; CX 3017 10013 16743; CX 2952 9505 16990; CX 9949 9505 16989; CA 16990 16989 16988;
  CX 16988 9505 9504; CX 2951 9504 16986; CX 3475 10976 15019; CX 15019 10532 11040; CX 11040 10597 14769; CX 3540 11040 14771; CX 14771 10597 11104; CA 14770 14769 14768;
  CX 14768 10597 10596; CX 3539 10596 14766; CX 3605 11104 14523; CX 14523 10662 11168; CX 11168 10727 14273; CX 11104 10662 14521; CA 14522 14521 14520; CX 14520 10662 10661;
  CA 14274 14273 14272; CX 14272 10727 10726; CX 3669 10726 14270; CX 3604 10661 14518; CX 3409 10466 15262; CX 9885 9440 17237; CA 17238 17237 17236; CX 17236 9440 9439;
  CX 2886 9439 17234; CX 17235 9439 9948; CX 2951 9948 16987; CX 9884 9439 17233; CA 17234 17233 17232; CX 17232 9439 9438; CX 9883 9438 17229; CX 17231 9438 9947;
  CX 2950 9947 16983; CX 2885 9438 17230; CA 17230 17229 17228; CX 17228 9438 9437; CX 17227 9437 9946; CX 9882 9437 17225; CX 2884 9437 17226; CA 17226 17225 17224;
  CX 17224 9437 9436; CX 17223 9436 9945; CX 9881 9436 17221; CX 2883 9436 17222; CA 17222 17221 17220; CX 17220 9436 9435; CX 17219 9435 9944; CX 2882 9435 17218;
  CX 9880 9435 17217; CA 17218 17217 17216; CX 17216 9435 9434; CX 2881 9434 17214; CX 17215 9434 9943; CX 2946 9943 16967; CX 9879 9434 17213; CA 17214 17213 17212;
  CX 17212 9434 9433; CX 17211 9433 9942; CX 2880 9433 17210; CX 9878 9433 17209; CA 17210 17209 17208; CX 17208 9433 9432; CX 17207 9432 9941; CX 2879 9432 17206;
  CX 9367 9432 17205; CA 17206 17205 17204; CX 17204 9432 9431; CX 2948 9945 16975; CX 16987 9504 10012; CX 3016 10012 16739; CX 2949 9946 16979; CX 9948 9504 16985;
  CA 16986 16985 16984; CX 16984 9504 9503; CX 9947 9503 16981; CX 2950 9503 16982; CA 16982 16981 16980; CX 16980 9503 9502; CX 16983 9503 10011; CX 3015 10011 16735;
  CX 9946 9502 16977; CX 16979 9502 10010; CX 3014 10010 16731; CX 2949 9502 16978; CA 16978 16977 16976; CX 16976 9502 9501; CX 16975 9501 10009; CX 2948 9501 16974;
  CX 3013 10009 16727; CX 9945 9501 16973; CA 16974 16973 16972; CX 16972 9501 9500; CX 9944 9500 16969; CX 2947 9944 16971; CX 16971 9500 10008; CX 3012 10008 16723;
  CX 2947 9500 16970; CA 16970 16969 16968; CX 16968 9500 9499; CX 16967 9499 10007; CX 3011 10007 16719; CX 2946 9499 16966; CX 9943 9499 16965; CA 16966 16965 16964;
  CX 2945 9942 16963; CX 16964 9499 9498; CX 16963 9498 10006; CX 3010 10006 16715; CX 2945 9498 16962; CX 2944 9941 16959; CX 9942 9498 16961; CA 16962 16961 16960;
  CX 16960 9498 9497; CX 9941 9497 16957; CX 16959 9497 10005; CX 2943 9431 16955; CX 2944 9497 16958; CA 16958 16957 16956; CX 16956 9497 9496; CX 16955 9496 10004;
  CX 3008 10004 16707; CX 9431 9496 16953; CX 2943 9496 16954; CA 16954 16953 16952; CX 16952 9496 9495; CX 3007 9495 16703; CA 16010 16009 16008; CX 16008 9768 9767;
  CX 10207 9767 16005; CX 3214 9767 16006; CA 16006 16005 16004; CX 16004 9767 9766; CX 16007 9767 10271; CX 3279 10271 15759; CX 15759 10336 10847; CX 10271 10336 15757;
  CA 15758 15757 15756; CX 15756 10336 10335; CX 3278 10335 15754; CX 10847 10401 15509; CX 3213 9766 16002; CX 3344 10847 15511; CX 15511 10401 10911; CX 3409 10911 15263;
  CX 15263 10466 10975; CX 10975 10531 15013; CA 15510 15509 15508; CX 15508 10401 10400; CX 3343 10400 15506; CX 3474 10975 15015; CX 15015 10531 11039; CX 11039 10596 14765;
  CX 3539 11039 14767; CX 14767 10596 11103; CX 11103 10661 14517; CA 14518 14517 14516; CX 3604 11103 14519; CX 14519 10661 11167; CX 14516 10661 10660; CX 3603 10660 14514;
  CX 3669 11167 14271; CX 14271 10726 11231; CX 3734 11231 14023; CX 11167 10726 14269; CA 14270 14269 14268; CX 14268 10726 10725; CX 3668 10725 14266; CX 10911 10466 15261;
  CA 15262 15261 15260; CX 15260 10466 10465; CX 3408 10465 15258; CX 3670 11168 14275; CX 14275 10727 11232; CX 3735 11232 14027; CX 3474 10531 15014; CA 15014 15013 15012;
  CX 15012 10531 10530; CX 3473 10530 15010; CX 3009 10005 16711; CX 10015 9572 16749; CA 16750 16749 16748; CX 16748 9572 9571; CX 10014 9571 16745; CX 3018 9571 16746;
  CX 16747 9571 10078; CX 3083 10078 16499; CX 16499 9636 10142; CX 10078 9636 16497; CA 16498 16497 16496; CX 16496 9636 9635; CX 3082 9635 16494; CX 3148 10142 16251;
  CX 16251 9701 10206; CX 10142 9701 16249; CA 16250 16249 16248; CX 16248 9701 9700; CX 3213 10206 16003; CX 16003 9766 10270; CX 10270 10335 15753; CX 3278 10270 15755;
  CX 15755 10335 10846; CX 3147 9700 16246; CX 10206 9766 16001; CA 16002 16001 16000; CX 16000 9766 9765; CX 3212 9765 15998; CX 3343 10846 15507; CX 15507 10400 10910;
  CX 3408 10910 15259; CX 10910 10465 15257; CX 15259 10465 10974; CA 15258 15257 15256; CX 15256 10465 10464; CX 3407 10464 15254; CX 3473 10974 15011; CX 15011 10530 11038;
  CX 3538 11038 14763; CX 10846 10400 15505; CA 15506 15505 15504; CX 15504 10400 10399; CX 3342 10399 15502; CA 16746 16745 16744; CX 16744 9571 9570; CX 3017 9570 16742;
  CX 10013 9570 16741; CA 16742 16741 16740; CX 16740 9570 9569; CX 16739 9569 10076; CX 3016 9569 16738; CX 3081 10076 16491; CX 10012 9569 16737; CA 16738 16737 16736;
  CX 16736 9569 9568; CX 10011 9568 16733; CX 16735 9568 10075; CX 3080 10075 16487; CX 16743 9570 10077; CX 3082 10077 16495; CX 16495 9635 10141; CX 10077 9635 16493;
  CA 16494 16493 16492; CX 16492 9635 9634; CX 16491 9634 10140; CX 10076 9634 16489; CX 3081 9634 16490; CA 16490 16489 16488; CX 16488 9634 9633; CX 16487 9633 10139;
  CX 10075 9633 16485; CX 3080 9633 16486; CA 16486 16485 16484; CX 16484 9633 9632; CX 3147 10141 16247; CX 16247 9700 10205; CX 10205 9765 15997; CA 15998 15997 15996;
  CX 15996 9765 9764; CX 3212 10205 15999; CX 15999 9765 10269; CX 3277 10269 15751; CX 3146 10140 16243; CX 10141 9700 16245; CA 16246 16245 16244; CX 16244 9700 9699].
(** Lines 25605-26004 of the file. *)
Definition mult2_64_64 : list cg := [
  CX 16243 9699 10204; CX 10204 9764 15993; CX 3211 10204 15995; CX 15995 9764 10268; CX 3276 10268 15747; CX 3145 10139 16239; CX 10140 9699 16241; CX 3146 9699 16242;
  CA 16242 16241 16240; CX 16240 9699 9698; CX 16239 9698 10203; CX 10139 9698 16237; CX 3145 9698 16238; CA 16238 16237 16236; CX 16236 9698 9697; CX 3144 9697 16234;
  CX 3211 9764 15994; CA 15994 15993 15992; CX 15992 9764 9763; CX 3210 9763 15990; CX 10203 9763 15989; CA 15990 15989 15988; CX 15988 9763 9762; CX 3209 9762 15986;
  CX 3079 9632 16482; CX 3210 10203 15991; CX 15991 9763 10267; CX 3275 10267 15743; CX 3015 9568 16734; CA 16734 16733 16732; CX 16732 9568 9567; CX 10010 9567 16729;
  CX 3014 9567 16730; CA 16730 16729 16728; CX 16728 9567 9566; CX 16727 9566 10073; CX 10009 9566 16725; CX 3013 9566 16726; CA 16726 16725 16724; CX 16724 9566 9565;
  CX 16723 9565 10072; CX 10008 9565 16721; CX 3012 9565 16722; CA 16722 16721 16720; CX 16720 9565 9564; CX 16719 9564 10071; CX 10007 9564 16717; CX 3078 10073 16479;
  CX 3077 10072 16475; CX 3076 10071 16471; CX 3011 9564 16718; CA 16718 16717 16716; CX 16716 9564 9563; CX 16715 9563 10070; CX 3075 10070 16467; CX 16731 9567 10074;
  CX 3079 10074 16483; CX 16483 9632 10138; CX 10074 9632 16481; CA 16482 16481 16480; CX 16480 9632 9631; CX 3078 9631 16478; CX 16479 9631 10137; CX 3144 10138 16235;
  CX 16235 9697 10202; CX 3209 10202 15987; CX 15987 9762 10266; CX 3274 10266 15739; CX 3143 10137 16231; CX 10138 9697 16233; CA 16234 16233 16232; CX 16232 9697 9696;
  CX 16231 9696 10201; CX 10137 9696 16229; CX 3143 9696 16230; CA 16230 16229 16228; CX 16228 9696 9695; CX 10073 9631 16477; CA 16478 16477 16476; CX 16476 9631 9630;
  CX 3077 9630 16474; CX 10072 9630 16473; CA 16474 16473 16472; CX 16472 9630 9629; CX 16475 9630 10136; CX 16471 9629 10135; CX 3141 10135 16223; CX 3208 10201 15983;
  CX 10071 9629 16469; CX 3076 9629 16470; CA 16470 16469 16468; CX 16468 9629 9628; CX 16467 9628 10134; CX 10070 9628 16465; CX 3075 9628 16466; CA 16466 16465 16464;
  CX 16464 9628 9627; CX 3074 9627 16462; CX 3142 10136 16227; CX 16227 9695 10200; CX 3207 10200 15979; CX 10136 9695 16225; CX 3142 9695 16226; CA 16226 16225 16224;
  CX 16224 9695 9694; CX 16223 9694 10199; CX 3206 10199 15975; CX 10135 9694 16221; CX 3140 10134 16219; CX 3141 9694 16222; CA 16222 16221 16220; CX 16220 9694 9693;
  CX 10134 9693 16217; CX 16219 9693 10198; CX 3205 10198 15971; CX 3140 9693 16218; CA 16218 16217 16216; CX 16216 9693 9692; CX 3139 9692 16214; CX 10202 9762 15985;
  CA 15986 15985 15984; CX 15984 9762 9761; CX 3208 9761 15982; CX 10201 9761 15981; CA 15982 15981 15980; CX 15980 9761 9760; CX 10200 9760 15977; CX 3207 9760 15978;
  CA 15978 15977 15976; CX 15976 9760 9759; CX 10199 9759 15973; CX 15975 9759 10263; CX 3271 10263 15727; CX 15979 9760 10264; CX 3272 10264 15731; CX 3206 9759 15974;
  CA 15974 15973 15972; CX 15972 9759 9758; CX 15971 9758 10262; CX 3270 10262 15723; CX 10198 9758 15969; CX 15983 9761 10265; CX 3273 10265 15735; CX 3205 9758 15970;
  CA 15970 15969 15968; CX 15968 9758 9757; CX 3204 9757 15966; CA 15754 15753 15752; CX 15752 10335 10334; CX 10269 10334 15749; CX 15751 10334 10845; CX 3342 10845 15503;
  CX 15503 10399 10909; CX 10845 10399 15501; CA 15502 15501 15500; CX 3407 10909 15255; CX 15255 10464 10973; CX 10909 10464 15253; CA 15254 15253 15252; CX 15252 10464 10463;
  CX 3406 10463 15250; CX 3472 10973 15007; CX 3277 10334 15750; CA 15750 15749 15748; CX 15748 10334 10333; CX 15747 10333 10844; CX 3341 10844 15499; CX 3276 10333 15746;
  CX 15500 10399 10398; CX 15499 10398 10908; CX 3406 10908 15251; CX 15251 10463 10972; CX 3471 10972 15003; CX 3341 10398 15498; CX 10844 10398 15497; CA 15498 15497 15496;
  CX 15496 10398 10397; CX 3340 10397 15494; CX 10908 10463 15249; CA 15250 15249 15248; CX 15248 10463 10462; CX 3405 10462 15246; CX 10268 10333 15745; CA 15746 15745 15744;
  CX 15744 10333 10332; CX 3275 10332 15742; CX 10267 10332 15741; CA 15742 15741 15740; CX 15740 10332 10331; CX 10266 10331 15737; CX 3274 10331 15738; CA 15738 15737 15736;
  CX 15736 10331 10330; CX 15739 10331 10842; CX 3339 10842 15491; CX 10265 10330 15733; CX 15743 10332 10843; CX 3340 10843 15495; CX 15495 10397 10907; CX 10843 10397 15493;
  CA 15494 15493 15492; CX 15492 10397 10396; CX 10842 10396 15489; CX 15491 10396 10906; CX 3339 10396 15490; CA 15490 15489 15488; CX 15488 10396 10395; CX 3338 10395 15486;
  CX 3404 10906 15243; CX 10907 10462 15245; CA 15246 15245 15244; CX 15244 10462 10461; CX 10906 10461 15241; CX 3404 10461 15242; CA 15242 15241 15240; CX 15240 10461 10460;
  CX 3403 10460 15238; CX 15243 10461 10970; CX 3469 10970 14995; CX 3405 10907 15247; CX 15247 10462 10971; CX 15735 10330 10841; CX 3338 10841 15487; CX 10841 10395 15485;
  CX 15487 10395 10905; CX 10905 10460 15237; CX 3403 10905 15239; CX 15239 10460 10969; CA 15238 15237 15236; CX 15236 10460 10459; CX 3402 10459 15234; CX 3468 10969 14991;
  CA 15486 15485 15484; CX 15484 10395 10394; CX 3337 10394 15482; CX 3470 10971 14999; CX 3273 10330 15734; CA 15734 15733 15732; CX 15732 10330 10329; CX 10264 10329 15729;
  CX 3272 10329 15730; CX 15731 10329 10840; CX 3337 10840 15483; CX 15483 10394 10904; CX 3402 10904 15235; CX 15235 10459 10968; CX 10904 10459 15233; CA 15234 15233 15232;
  CX 15232 10459 10458; CX 10840 10394 15481; CA 15482 15481 15480; CX 15480 10394 10393; CX 3336 10393 15478; CX 3467 10968 14987; CX 3401 10458 15230; CA 15730 15729 15728;
  CX 15728 10329 10328; CX 10263 10328 15725; CX 3271 10328 15726; CA 15726 15725 15724; CX 15724 10328 10327; CX 3270 10327 15722; CX 10262 10327 15721; CA 15722 15721 15720;
  CX 15723 10327 10838; CX 3335 10838 15475; CX 15727 10328 10839; CX 3336 10839 15479; CX 15479 10393 10903; CX 10839 10393 15477; CA 15478 15477 15476; CX 15476 10393 10392;
  CX 3335 10392 15474; CX 15475 10392 10902; CX 10838 10392 15473; CA 15474 15473 15472; CX 15472 10392 10391; CX 3334 10391 15470; CX 3401 10903 15231; CX 15231 10458 10967;
  CX 3466 10967 14983; CX 10903 10458 15229; CA 15230 15229 15228; CX 3400 10902 15227; CX 15228 10458 10457; CX 15227 10457 10966; CX 3465 10966 14979; CX 3400 10457 15226;
  CX 10902 10457 15225; CA 15226 15225 15224; CX 15224 10457 10456; CX 3399 10456 15222; CX 15720 10327 10326; CX 3269 10326 15718; CX 10974 10530 15009; CA 15010 15009 15008;
  CX 15008 10530 10529; CX 10973 10529 15005; CX 3472 10529 15006; CA 15006 15005 15004; CX 15007 10529 11037; CX 3537 11037 14759; CX 15004 10529 10528; CX 15003 10528 11036;
  CX 3471 10528 15002; CX 10972 10528 15001; CA 15002 15001 15000; CX 15000 10528 10527; CX 10971 10527 14997; CX 3536 11036 14755; CX 14999 10527 11035; CX 3535 11035 14751;
  CX 3470 10527 14998; CA 14998 14997 14996; CX 14996 10527 10526; CX 3469 10526 14994; CX 14995 10526 11034; CX 3534 11034 14747; CX 10970 10526 14993; CA 14994 14993 14992;
  CX 14992 10526 10525; CX 14991 10525 11033; CX 3533 11033 14743; CX 3468 10525 14990; CX 10969 10525 14989; CA 14990 14989 14988; CX 14988 10525 10524; CX 3467 10524 14986;
  CX 10968 10524 14985; CA 14986 14985 14984; CX 14987 10524 11032; CX 14984 10524 10523; CX 10967 10523 14981; CX 3466 10523 14982; CA 14982 14981 14980; CX 14980 10523 10522;
  CX 14979 10522 11030; CX 10966 10522 14977; CX 3465 10522 14978; CA 14978 14977 14976; CX 14976 10522 10521; CX 3464 10521 14974; CX 3532 11032 14739; CX 3530 11030 14731;
  CX 14983 10523 11031; CX 3010 9563 16714; CX 10006 9563 16713; CA 16714 16713 16712; CX 16712 9563 9562; CX 16711 9562 10069; CX 10005 9562 16709; CX 3074 10069 16463;
  CX 16463 9627 10133; CX 10069 9627 16461; CA 16462 16461 16460; CX 16460 9627 9626; CX 3139 10133 16215; CX 16215 9692 10197; CX 3204 10197 15967; CX 15967 9757 10261;
  CX 10261 10326 15717; CA 15718 15717 15716; CX 3269 10261 15719; CX 15719 10326 10837; CX 15716 10326 10325; CX 3268 10325 15714; CX 3334 10837 15471; CX 15471 10391 10901;
  CX 3399 10901 15223; CX 10197 9757 15965; CA 15966 15965 15964; CX 15964 9757 9756; CX 3203 9756 15962; CX 10837 10391 15469; CA 15470 15469 15468; CX 15468 10391 10390;
  CX 3333 10390 15466; CX 10133 9692 16213; CA 16214 16213 16212; CX 16212 9692 9691; CX 3138 9691 16210; CX 3073 9626 16458; CX 15223 10456 10965; CX 3464 10965 14975;
  CX 14975 10521 11029; CX 10965 10521 14973; CA 14974 14973 14972; CX 14972 10521 10520; CX 3529 11029 14727; CX 3463 10520 14970; CX 10901 10456 15221; CA 15222 15221 15220;
  CX 15220 10456 10455; CX 3398 10455 15218; CX 3009 9562 16710; CX 3531 11031 14735; CX 14279 10728 11233; CX 11233 10793 14029; CX 3736 11233 14031; CX 14031 10793 11297].
(** Lines 26005-26404 of the file. *)
Definition mult2_64_65 : list cg := [
  CX 11297 11362 13781; CX 3801 11297 13783; CX 13783 11362 11808; CX 3866 11808 13535; CX 13535 11427 11872; CX 11808 11427 13533; CA 13534 13533 13532; CX 13532 11427 11426;
  CX 3865 11426 13530; CX 3931 11872 13287; CX 13287 11492 11936; CX 3996 11936 13039; CX 13039 11557 12000; CX 4061 12000 12791; CX 11936 11557 13037; CA 13038 13037 13036;
  CX 13036 11557 11556; CX 3995 11556 13034; CA 13782 13781 13780; CX 13780 11362 11361; CX 3800 11361 13778; CX 12791 11622 12064; CX 4126 12064 12543; CA 14030 14029 14028;
  CX 14028 10793 10792; CX 11232 10792 14025; CX 3735 10792 14026; CA 14026 14025 14024; CX 14024 10792 10791; CX 14023 10791 11295; CX 3799 11295 13775; CX 14027 10792 11296;
  CX 3800 11296 13779; CX 13779 11361 11807; CX 3865 11807 13531; CX 13531 11426 11871; CX 11807 11426 13529; CA 13530 13529 13528; CX 13528 11426 11425; CX 3864 11425 13526;
  CX 11296 11361 13777; CA 13778 13777 13776; CX 13776 11361 11360; CX 13775 11360 11806; CX 3864 11806 13527; CX 13527 11425 11870; CX 11806 11425 13525; CA 13526 13525 13524;
  CX 13524 11425 11424; CX 3863 11424 13522; CX 3799 11360 13774; CX 11295 11360 13773; CA 13774 13773 13772; CX 13772 11360 11359; CX 3798 11359 13770; CX 12000 11622 12789;
  CX 3930 11871 13283; CX 11872 11492 13285; CA 13286 13285 13284; CX 13284 11492 11491; CX 3930 11491 13282; CX 13283 11491 11935; CX 11935 11556 13033; CX 3995 11935 13035;
  CA 13034 13033 13032; CX 13032 11556 11555; CX 3994 11555 13030; CX 3929 11870 13279; CX 11871 11491 13281; CA 13282 13281 13280; CX 13280 11491 11490; CX 11870 11490 13277;
  CX 3929 11490 13278; CX 13279 11490 11934; CX 11934 11555 13029; CA 13030 13029 13028; CA 13278 13277 13276; CX 13276 11490 11489; CX 3928 11489 13274; CX 13028 11555 11554;
  CX 3993 11554 13026; CA 12790 12789 12788; CX 12788 11622 11621; CX 4060 11621 12786; CX 3994 11934 13031; CX 11231 10791 14021; CX 13031 11555 11998; CX 4059 11998 12783;
  CX 3734 10791 14022; CA 14022 14021 14020; CX 14020 10791 10790; CX 3733 10790 14018; CX 13035 11556 11999; CX 4060 11999 12787; CX 12787 11621 12063; CX 11999 11621 12785;
  CA 12786 12785 12784; CX 12784 11621 11620; CX 11998 11620 12781; CX 12783 11620 12062; CX 4124 12062 12535; CX 4125 12063 12539; CX 4059 11620 12782; CA 12782 12781 12780;
  CX 12780 11620 11619; CX 4058 11619 12778; CA 12546 12545 12544; CX 12544 11688 11687; CX 12064 11687 12541; CX 12543 11687 12128; CX 4191 12128 12295; CX 12295 11751 28062;
  CX 12128 11751 12293; CX 4126 11687 12542; CA 12542 12541 12540; CX 12540 11687 11686; CX 12063 11686 12537; CX 4125 11686 12538; CA 12538 12537 12536; CX 12536 11686 11685;
  CX 4124 11685 12534; CX 12535 11685 12126; CX 4189 12126 12287; CX 12539 11686 12127; CX 4190 12127 12291; CA 12294 12293 12292; CX 12292 11751 11750; CX 12127 11750 12289;
  CX 4190 11750 12290; CA 12290 12289 12288; CX 12288 11750 11749; CX 12287 11749 28064; CX 12126 11749 12285; CX 4189 11749 12286; CA 12286 12285 12284; CX 12284 11749 11748;
  CX 4188 11748 12282; CX 12291 11750 28063; CX 12062 11685 12533; CA 12534 12533 12532; CX 12532 11685 11684; CX 4123 11684 12530; CA 14766 14765 14764; CX 14764 10596 10595;
  CX 14763 10595 11102; CX 11102 10660 14513; CX 3538 10595 14762; CA 14514 14513 14512; CX 14512 10660 10659; CX 11038 10595 14761; CA 14762 14761 14760; CX 14760 10595 10594;
  CX 11037 10594 14757; CX 14759 10594 11101; CX 3602 11101 14511; CX 14511 10659 11165; CX 3667 11165 14263; CX 3602 10659 14510; CX 3603 11102 14515; CX 14515 10660 11166;
  CX 3668 11166 14267; CX 14267 10725 11230; CX 3733 11230 14019; CX 14019 10790 11294; CX 11166 10725 14265; CX 3798 11294 13771; CX 13771 11359 11805; CX 3863 11805 13523;
  CX 11294 11359 13769; CA 13770 13769 13768; CX 13768 11359 11358; CX 3797 11358 13766; CX 13523 11424 11869; CX 11869 11489 13273; CX 3928 11869 13275; CX 13275 11489 11933;
  CX 3993 11933 13027; CX 13027 11554 11997; CX 4058 11997 12779; CX 12779 11619 12061; CX 12061 11684 12529; CA 12530 12529 12528; CA 13274 13273 13272; CX 13272 11489 11488;
  CX 3927 11488 13270; CX 4123 12061 12531; CX 12528 11684 11683; CX 4122 11683 12526; CX 11933 11554 13025; CA 13026 13025 13024; CX 13024 11554 11553; CX 11805 11424 13521;
  CX 11230 10790 14017; CA 14018 14017 14016; CA 13522 13521 13520; CX 13520 11424 11423; CX 3862 11423 13518; CA 14266 14265 14264; CX 14264 10725 10724; CX 3667 10724 14262;
  CX 14263 10724 11229; CX 11165 10724 14261; CA 14262 14261 14260; CX 14260 10724 10723; CX 3666 10723 14258; CX 3732 11229 14015; CX 11101 10659 14509; CA 14510 14509 14508;
  CX 14508 10659 10658; CX 3601 10658 14506; CX 3537 10594 14758; CA 14758 14757 14756; CX 14756 10594 10593; CX 11036 10593 14753; CX 14755 10593 11100; CX 11100 10658 14505;
  CX 3601 11100 14507; CA 14506 14505 14504; CX 14504 10658 10657; CX 3600 10657 14502; CX 3536 10593 14754; CA 14754 14753 14752; CX 14752 10593 10592; CX 14751 10592 11099;
  CX 3535 10592 14750; CX 3600 11099 14503; CX 14503 10657 11163; CX 3665 11163 14255; CX 11099 10657 14501; CA 14502 14501 14500; CX 14500 10657 10656; CX 3599 10656 14498;
  CX 11035 10592 14749; CA 14750 14749 14748; CX 14507 10658 11164; CX 3666 11164 14259; CX 14259 10723 11228; CX 11164 10723 14257; CA 14258 14257 14256; CX 14256 10723 10722;
  CX 14255 10722 11227; CX 3730 11227 14007; CX 11163 10722 14253; CX 3665 10722 14254; CA 14254 14253 14252; CX 14252 10722 10721; CX 3664 10721 14250; CX 3731 11228 14011;
  CX 3992 11553 13022; CX 11997 11619 12777; CA 12778 12777 12776; CX 12776 11619 11618; CX 4057 11618 12774; CX 14748 10592 10591; CX 3534 10591 14746; CX 11034 10591 14745;
  CX 14747 10591 11098; CX 11098 10656 14497; CX 3599 11098 14499; CX 14499 10656 11162; CX 11162 10721 14249; CA 14250 14249 14248; CX 14248 10721 10720; CX 3664 11162 14251;
  CX 14251 10721 11226; CX 3729 11226 14003; CX 3663 10720 14246; CA 14498 14497 14496; CX 14496 10656 10655; CX 3598 10655 14494; CA 14746 14745 14744; CX 14744 10591 10590;
  CX 11033 10590 14741; CX 14743 10590 11097; CX 11097 10655 14493; CX 3598 11097 14495; CX 14495 10655 11161; CX 3663 11161 14247; CX 11161 10720 14245; CX 14247 10720 11225;
  CX 3728 11225 13999; CA 14246 14245 14244; CX 14244 10720 10719; CX 3662 10719 14242; CA 14494 14493 14492; CX 14492 10655 10654; CX 3597 10654 14490; CX 14016 10790 10789;
  CX 3732 10789 14014; CX 14015 10789 11293; CX 11229 10789 14013; CX 3797 11293 13767; CX 13767 11358 11804; CX 11804 11423 13517; CA 13518 13517 13516; CX 3862 11804 13519;
  CX 13516 11423 11422; CX 3861 11422 13514; CX 11293 11358 13765; CA 13766 13765 13764; CX 13764 11358 11357; CX 3796 11357 13762; CA 14014 14013 14012; CX 14012 10789 10788;
  CX 3731 10788 14010; CX 14011 10788 11292; CX 11228 10788 14009; CA 14010 14009 14008; CX 3796 11292 13763; CX 13763 11357 11803; CX 3861 11803 13515; CX 13515 11422 11867;
  CX 11803 11422 13513; CX 11292 11357 13761; CA 13762 13761 13760; CX 13760 11357 11356; CX 3795 11356 13758; CX 3926 11867 13267; CX 14008 10788 10787; CX 14007 10787 11291;
  CX 11227 10787 14005; CX 3730 10787 14006; CA 14006 14005 14004; CX 14004 10787 10786; CX 14003 10786 11290; CX 3729 10786 14002; CX 11226 10786 14001; CA 14002 14001 14000;
  CX 3795 11291 13759; CX 13759 11356 11802; CX 3860 11802 13511; CX 11291 11356 13757; CA 13758 13757 13756; CX 13756 11356 11355; CX 3794 11290 13755; CX 13755 11355 11801;
  CX 3859 11801 13507; CX 3794 11355 13754; CX 11290 11355 13753; CA 13754 13753 13752; CX 13752 11355 11354; CX 3793 11354 13750; CX 13519 11423 11868; CX 3927 11868 13271;
  CX 13271 11488 11932; CX 11932 11553 13021; CX 3992 11932 13023; CX 13023 11553 11996; CX 11996 11618 12773; CX 4057 11996 12775; CX 12775 11618 12060; CX 4122 12060 12527;
  CX 12060 11683 12525; CA 12526 12525 12524; CX 12527 11683 12124; CX 4187 12124 12279; CX 12524 11683 11682; CX 4121 11682 12522; CX 11868 11488 13269; CA 13270 13269 13268;
  CX 13268 11488 11487; CX 13267 11487 11931; CX 3991 11931 13019; CX 3926 11487 13266; CX 11867 11487 13265; CA 13266 13265 13264; CX 13264 11487 11486; CX 3925 11486 13262;
  CA 12774 12773 12772; CX 14000 10786 10785; CX 13999 10785 11289; CX 3728 10785 13998; CX 11225 10785 13997; CA 13998 13997 13996; CX 13996 10785 10784; CX 3727 10784 13994;
  CX 3793 11289 13751; CX 13751 11354 11800; CX 3858 11800 13503; CX 11289 11354 13749; CA 13750 13749 13748; CX 13748 11354 11353; CX 3792 11353 13746; CA 13514 13513 13512;
  CX 13512 11422 11421; CX 11802 11421 13509; CX 3860 11421 13510; CA 13510 13509 13508; CX 13508 11421 11420; CX 13507 11420 11865; CX 11801 11420 13505; CX 3859 11420 13506;
  CA 13506 13505 13504; CX 13504 11420 11419; CX 13503 11419 11864; CX 11800 11419 13501; CX 3858 11419 13502; CA 13502 13501 13500; CX 13500 11419 11418; CX 3857 11418 13498].
(** Lines 26405-26804 of the file. *)
Definition mult2_64_66 : list cg := [
  CX 13511 11421 11866; CX 3925 11866 13263; CX 13263 11486 11930; CX 11866 11486 13261; CA 13262 13261 13260; CX 13260 11486 11485; CX 11865 11485 13257; CX 3924 11865 13259;
  CX 13259 11485 11929; CX 3924 11485 13258; CX 3923 11864 13255; CX 3990 11930 13015; CA 13258 13257 13256; CX 13256 11485 11484; CX 13255 11484 11928; CX 3988 11928 13007;
  CX 3923 11484 13254; CX 11864 11484 13253; CA 13254 13253 13252; CX 13252 11484 11483; CX 3922 11483 13250; CX 3989 11929 13011; CX 12772 11618 11617; CX 4056 11617 12770;
  CA 13022 13021 13020; CX 13020 11553 11552; CX 3991 11552 13018; CX 11931 11552 13017; CA 13018 13017 13016; CX 13016 11552 11551; CX 11930 11551 13013; CX 3990 11551 13014;
  CX 13015 11551 11994; CX 4055 11994 12767; CX 13019 11552 11995; CA 13014 13013 13012; CX 13012 11551 11550; CX 13011 11550 11993; CX 3989 11550 13010; CX 4054 11993 12763;
  CX 11929 11550 13009; CA 13010 13009 13008; CX 13008 11550 11549; CX 13007 11549 11992; CX 4053 11992 12759; CX 11928 11549 13005; CX 3988 11549 13006; CA 13006 13005 13004;
  CX 13004 11549 11548; CX 3987 11548 13002; CX 4056 11995 12771; CX 12771 11617 12059; CX 12059 11682 12521; CA 12522 12521 12520; CX 12520 11682 11681; CX 4120 11681 12518;
  CX 4121 12059 12523; CX 12523 11682 12123; CX 4186 12123 12275; CX 11995 11617 12769; CA 12770 12769 12768; CX 12768 11617 11616; CX 12767 11616 12058; CX 4055 11616 12766;
  CX 4120 12058 12519; CX 11994 11616 12765; CA 12766 12765 12764; CX 12764 11616 11615; CX 11993 11615 12761; CX 4054 11615 12762; CA 12762 12761 12760; CX 12760 11615 11614;
  CX 4053 11614 12758; CX 11992 11614 12757; CA 12758 12757 12756; CX 12759 11614 12056; CX 12756 11614 11613; CX 4052 11613 12754; CX 12058 11681 12517; CA 12518 12517 12516;
  CX 12516 11681 11680; CX 4119 11680 12514; CX 12763 11615 12057; CX 12057 11680 12513; CA 12514 12513 12512; CX 4119 12057 12515; CX 12515 11680 12121; CX 4184 12121 12267;
  CX 4118 12056 12511; CX 12519 11681 12122; CX 4185 12122 12271; CX 12512 11680 11679; CX 12056 11679 12509; CX 4118 11679 12510; CA 12510 12509 12508; CX 12511 11679 12120;
  CX 4183 12120 12263; CX 12508 11679 11678; CX 4117 11678 12506; CX 3533 10590 14742; CA 14742 14741 14740; CX 14740 10590 10589; CX 3532 10589 14738; CX 11032 10589 14737;
  CA 14738 14737 14736; CX 14736 10589 10588; CX 11031 10588 14733; CX 14735 10588 11095; CX 3596 11095 14487; CX 3531 10588 14734; CA 14734 14733 14732; CX 14732 10588 10587;
  CX 11030 10587 14729; CX 14731 10587 11094; CX 3530 10587 14730; CA 14730 14729 14728; CX 14728 10587 10586; CX 14727 10586 11093; CX 3595 11094 14483; CX 3594 11093 14479;
  CX 3529 10586 14726; CX 11029 10586 14725; CA 14726 14725 14724; CX 14724 10586 10585; CX 3528 10585 14722; CX 12531 11684 12125; CX 12125 11748 12281; CA 12282 12281 12280;
  CX 4188 12125 12283; CX 12283 11748 28065; CX 12280 11748 11747; CX 12279 11747 28066; CX 12124 11747 12277; CX 4187 11747 12278; CA 12278 12277 12276; CX 12276 11747 11746;
  CX 12123 11746 12273; CX 4186 11746 12274; CA 12274 12273 12272; CX 12272 11746 11745; CX 12271 11745 28068; CX 12275 11746 28067; CX 4185 11745 12270; CX 12122 11745 12269;
  CA 12270 12269 12268; CX 12268 11745 11744; CX 12267 11744 28069; CX 12121 11744 12265; CX 4184 11744 12266; CA 12266 12265 12264; CX 12264 11744 11743; CX 12263 11743 28070;
  CX 12120 11743 12261; CX 4183 11743 12262; CA 12262 12261 12260; CX 12260 11743 11742; CX 4182 11742 12258; CX 14739 10589 11096; CX 3597 11096 14491; CX 14491 10654 11160;
  CX 3662 11160 14243; CX 11096 10654 14489; CA 14490 14489 14488; CX 14488 10654 10653; CX 14487 10653 11159; CX 3661 11159 14239; CX 3596 10653 14486; CX 11095 10653 14485;
  CX 14243 10719 11224; CX 3727 11224 13995; CX 13995 10784 11288; CX 3792 11288 13747; CX 13747 11353 11799; CX 11288 11353 13745; CA 13746 13745 13744; CX 13744 11353 11352;
  CX 3791 11352 13742; CX 11224 10784 13993; CA 13994 13993 13992; CX 13992 10784 10783; CX 3726 10783 13990; CA 14486 14485 14484; CX 14484 10653 10652; CX 14483 10652 11158;
  CX 3660 11158 14235; CX 11094 10652 14481; CX 3857 11799 13499; CX 13499 11418 11863; CX 11863 11483 13249; CX 3922 11863 13251; CX 13251 11483 11927; CA 13250 13249 13248;
  CX 13248 11483 11482; CX 3921 11482 13246; CX 3595 10652 14482; CA 14482 14481 14480; CX 14480 10652 10651; CX 11093 10651 14477; CX 14479 10651 11157; CX 3594 10651 14478;
  CA 14478 14477 14476; CX 14476 10651 10650; CX 3659 11157 14231; CX 3593 10650 14474; CX 3987 11927 13003; CX 13003 11548 11991; CX 11991 11613 12753; CA 12754 12753 12752;
  CX 12752 11613 11612; CX 4051 11612 12750; CX 4052 11991 12755; CX 11799 11418 13497; CA 13498 13497 13496; CX 13496 11418 11417; CX 3856 11417 13494; CX 11927 11548 13001;
  CA 13002 13001 13000; CX 13000 11548 11547; CX 3986 11547 12998; CX 12755 11613 12055; CX 4117 12055 12507; CX 12507 11678 12119; CX 4182 12119 12259; CX 12259 11742 28071;
  CX 12119 11742 12257; CA 12258 12257 12256; CX 12256 11742 11741; CX 4181 11741 12254; CX 12055 11678 12505; CA 12506 12505 12504; CX 12504 11678 11677; CX 4116 11677 12502;
  CX 11160 10719 14241; CA 14242 14241 14240; CX 14240 10719 10718; CX 14239 10718 11223; CX 11223 10783 13989; CA 13990 13989 13988; CX 3726 11223 13991; CX 13991 10783 11287;
  CX 13988 10783 10782; CX 3661 10718 14238; CX 3791 11287 13743; CX 13743 11352 11798; CX 3856 11798 13495; CX 11287 11352 13741; CA 13742 13741 13740; CX 13740 11352 11351;
  CX 13495 11417 11862; CX 11798 11417 13493; CX 11862 11482 13245; CX 3921 11862 13247; CX 13247 11482 11926; CX 3986 11926 12999; CA 13246 13245 13244; CX 13244 11482 11481;
  CX 3920 11481 13242; CX 3790 11351 13738; CX 12999 11547 11990; CX 4051 11990 12751; CX 12751 11612 12054; CX 4116 12054 12503; CX 12503 11677 12118; CX 4181 12118 12255;
  CX 12255 11741 28072; CX 12118 11741 12253; CA 12254 12253 12252; CX 12252 11741 11740; CX 4180 11740 12250; CX 12054 11677 12501; CA 12502 12501 12500; CX 12500 11677 11676;
  CX 4115 11676 12498; CX 11926 11547 12997; CX 3725 10782 13986; CA 13494 13493 13492; CX 13492 11417 11416; CX 3855 11416 13490; CA 12998 12997 12996; CX 12996 11547 11546;
  CX 3985 11546 12994; CX 11159 10718 14237; CA 14238 14237 14236; CX 14236 10718 10717; CX 11158 10717 14233; CX 3660 10717 14234; CX 14235 10717 11222; CX 3725 11222 13987;
  CX 13987 10782 11286; CA 14234 14233 14232; CX 14232 10717 10716; CX 14231 10716 11221; CX 3790 11286 13739; CX 13739 11351 11797; CX 11797 11416 13489; CX 3855 11797 13491;
  CA 13490 13489 13488; CX 13488 11416 11415; CX 3854 11415 13486; CX 11286 11351 13737; CA 13738 13737 13736; CX 13736 11351 11350; CX 3659 10716 14230; CX 13491 11416 11861;
  CX 11861 11481 13241; CX 3920 11861 13243; CX 13243 11481 11925; CX 3985 11925 12995; CX 12995 11546 11989; CX 11925 11546 12993; CA 12994 12993 12992; CX 4050 11989 12747;
  CA 13242 13241 13240; CX 13240 11481 11480; CX 3919 11480 13238; CX 3724 11221 13983; CX 11222 10782 13985; CA 13986 13985 13984; CX 13984 10782 10781; CX 11221 10781 13981;
  CX 3724 10781 13982; CA 13982 13981 13980; CX 13980 10781 10780; CX 3723 10780 13978; CX 13983 10781 11285; CX 11285 11350 13733; CX 3789 11285 13735; CX 13735 11350 11796;
  CX 11796 11415 13485; CX 12992 11546 11545; CX 3984 11545 12990; CX 3789 11350 13734; CA 13734 13733 13732; CX 13732 11350 11349; CX 3788 11349 13730; CX 3854 11796 13487;
  CX 13487 11415 11860; CX 11860 11480 13237; CX 3919 11860 13239; CA 13238 13237 13236; CX 13236 11480 11479; CX 3918 11479 13234; CX 13239 11480 11924; CX 11924 11545 12989;
  CX 3984 11924 12991; CX 12991 11545 11988; CX 4049 11988 12743; CA 12990 12989 12988; CX 12988 11545 11544; CX 3983 11544 12986; CX 11157 10716 14229; CA 14230 14229 14228;
  CX 14228 10716 10715; CX 3658 10715 14226; CA 13486 13485 13484; CX 13484 11415 11414; CX 3853 11414 13482; CX 11990 11612 12749; CA 12750 12749 12748; CX 12748 11612 11611;
  CX 12747 11611 12053; CX 4115 12053 12499; CX 12499 11676 12117; CX 12053 11676 12497; CA 12498 12497 12496; CX 12496 11676 11675; CX 4114 11675 12494; CX 12117 11740 12249;
  CA 12250 12249 12248; CX 4180 12117 12251; CX 12251 11740 28073; CX 4050 11611 12746; CX 11989 11611 12745; CA 12746 12745 12744; CX 12744 11611 11610; CX 12743 11610 12052;
  CX 4114 12052 12495; CX 12495 11675 12116; CX 4179 12116 12247; CX 4049 11610 12742; CX 12052 11675 12493; CA 12494 12493 12492; CX 12492 11675 11674; CX 4113 11674 12490;
  CX 11988 11610 12741; CA 12742 12741 12740; CX 12740 11610 11609; CX 4048 11609 12738; CX 12248 11740 11739; CX 12116 11739 12245; CX 4179 11739 12246; CA 12246 12245 12244;
  CX 12247 11739 28074; CA 16710 16709 16708; CX 16708 9562 9561; CX 16707 9561 10068; CX 3073 10068 16459; CX 16459 9626 10132; CX 3138 10132 16211; CX 16211 9691 10196].
(** Lines 26805-27204 of the file. *)
Definition mult2_64_67 : list cg := [
  CX 10196 9756 15961; CX 3203 10196 15963; CA 15962 15961 15960; CX 15960 9756 9755; CX 3202 9755 15958; CX 15963 9756 10260; CX 3268 10260 15715; CX 15715 10325 10836;
  CX 3333 10836 15467; CX 15467 10390 10900; CX 3398 10900 15219; CX 15219 10455 10964; CX 3463 10964 14971; CX 10260 10325 15713; CA 15714 15713 15712; CX 15712 10325 10324;
  CX 3267 10324 15710; CX 10132 9691 16209; CA 16210 16209 16208; CX 16208 9691 9690; CX 10004 9561 16705; CX 10836 10390 15465; CA 15466 15465 15464; CX 15464 10390 10389;
  CX 3332 10389 15462; CX 10068 9626 16457; CA 16458 16457 16456; CX 16456 9626 9625; CX 3072 9625 16454; CX 3137 9690 16206; CX 10964 10520 14969; CA 14970 14969 14968;
  CX 10900 10455 15217; CA 15218 15217 15216; CX 15216 10455 10454; CX 3397 10454 15214; CX 14971 10520 11028; CX 3528 11028 14723; CX 14723 10585 11092; CX 3593 11092 14475;
  CX 14475 10650 11156; CX 3658 11156 14227; CX 11156 10715 14225; CA 14226 14225 14224; CX 14224 10715 10714; CX 11092 10650 14473; CA 14474 14473 14472; CX 3657 10714 14222;
  CX 14472 10650 10649; CX 3592 10649 14470; CX 3008 9561 16706; CA 16706 16705 16704; CX 16704 9561 9560; CX 3007 9560 16702; CX 9495 9560 16701; CX 16703 9560 10067;
  CX 3072 10067 16455; CX 16455 9625 10131; CX 10131 9690 16205; CX 3137 10131 16207; CX 16207 9690 10195; CX 3202 10195 15959; CX 15959 9755 10259; CX 10259 10324 15709;
  CA 15710 15709 15708; CX 15708 10324 10323; CX 3266 10323 15706; CX 3267 10259 15711; CX 15711 10324 10835; CX 3332 10835 15463; CX 10195 9755 15957; CA 15958 15957 15956;
  CX 15956 9755 9754; CX 3201 9754 15954; CX 15463 10389 10899; CX 10835 10389 15461; CA 15462 15461 15460; CX 15460 10389 10388; CX 3331 10388 15458; CX 10067 9625 16453;
  CA 16206 16205 16204; CX 16204 9690 9689; CX 3136 9689 16202; CX 3397 10899 15215; CX 15215 10454 10963; CX 3462 10963 14967; CX 10899 10454 15213; CA 15214 15213 15212;
  CX 15212 10454 10453; CX 3396 10453 15210; CX 14227 10715 11220; CX 3723 11220 13979; CX 11220 10780 13977; CX 13979 10780 11284; CX 11284 11349 13729; CA 13730 13729 13728;
  CX 3788 11284 13731; CX 13731 11349 11795; CX 11795 11414 13481; CA 13482 13481 13480; CX 13480 11414 11413; CX 3852 11413 13478; CX 3853 11795 13483; CX 13483 11414 11859;
  CX 11859 11479 13233; CX 3918 11859 13235; CX 13235 11479 11923; CX 11923 11544 12985; CX 3983 11923 12987; CA 13234 13233 13232; CX 13232 11479 11478; CX 3917 11478 13230;
  CA 12986 12985 12984; CX 12984 11544 11543; CX 3982 11543 12982; CA 13978 13977 13976; CX 13976 10780 10779; CX 3722 10779 13974; CX 13728 11349 11348; CX 3787 11348 13726;
  CA 16454 16453 16452; CX 16452 9625 9624; CX 3071 9624 16450; CX 12987 11544 11987; CX 4048 11987 12739; CX 11987 11609 12737; CA 12738 12737 12736; CX 12736 11609 11608;
  CX 12739 11609 12051; CX 4113 12051 12491; CX 12491 11674 12115; CX 12051 11674 12489; CX 4047 11608 12734; CX 4178 12115 12243; CA 16702 16701 16700; CX 16700 9560 9559;
  CX 3071 9559 16451; CX 16451 9624 10130; CX 9559 9624 16449; CA 16450 16449 16448; CX 16448 9624 9623; CX 3136 10130 16203; CX 3135 9623 16199; CX 10130 9689 16201;
  CA 16202 16201 16200; CX 16200 9689 9688; CX 16199 9688 10193; CX 3135 9688 16198; CX 9623 9688 16197; CA 16198 16197 16196; CX 16196 9688 9687; CX 3199 9687 15947;
  CX 16203 9689 10194; CX 10194 9754 15953; CX 3201 10194 15955; CX 15955 9754 10258; CX 3266 10258 15707; CX 15707 10323 10834; CX 10834 10388 15457; CX 3331 10834 15459;
  CX 15459 10388 10898; CX 3396 10898 15211; CX 10258 10323 15705; CA 15706 15705 15704; CX 15704 10323 10322; CX 3265 10322 15702; CX 15211 10453 10962; CX 3461 10962 14963;
  CX 10898 10453 15209; CA 15210 15209 15208; CX 15208 10453 10452; CX 3395 10452 15206; CA 15458 15457 15456; CX 15456 10388 10387; CX 3330 10387 15454; CA 15954 15953 15952;
  CX 15952 9754 9753; CX 10193 9753 15949; CX 3200 9753 15950; CA 15950 15949 15948; CX 15948 9753 9752; CX 15947 9752 10256; CX 3199 9752 15946; CX 3264 10256 15699;
  CX 3200 10193 15951; CX 15951 9753 10257; CX 3265 10257 15703; CX 15703 10322 10833; CX 10833 10387 15453; CX 10257 10322 15701; CA 15702 15701 15700; CX 15700 10322 10321;
  CX 3264 10321 15698; CX 3330 10833 15455; CX 15455 10387 10897; CX 10897 10452 15205; CA 15206 15205 15204; CA 15454 15453 15452; CX 10256 10321 15697; CA 15698 15697 15696;
  CX 15696 10321 10320; CX 3263 10320 15694; CX 3395 10897 15207; CX 15204 10452 10451; CX 3394 10451 15202; CX 15207 10452 10961; CX 3460 10961 14959; CX 15452 10387 10386;
  CX 3329 10386 15450; CX 14968 10520 10519; CX 3462 10519 14966; CX 10963 10519 14965; CA 14966 14965 14964; CX 14964 10519 10518; CX 3461 10518 14962; CX 10962 10518 14961;
  CA 14962 14961 14960; CX 14960 10518 10517; CX 10961 10517 14957; CX 14963 10518 11026; CX 3526 11026 14715; CX 14967 10519 11027; CX 3527 11027 14719; CX 3460 10517 14958;
  CA 14958 14957 14956; CX 14956 10517 10516; CX 3459 10516 14954; CX 14959 10517 11025; CX 3525 11025 14711; CX 11028 10585 14721; CA 14722 14721 14720; CX 14720 10585 10584;
  CX 3527 10584 14718; CX 14719 10584 11091; CX 11091 10649 14469; CA 14470 14469 14468; CX 3592 11091 14471; CX 14471 10649 11155; CX 11155 10714 14221; CA 14222 14221 14220;
  CX 14468 10649 10648; CX 3591 10648 14466; CX 14220 10714 10713; CX 3656 10713 14218; CX 3657 11155 14223; CX 14223 10714 11219; CX 3722 11219 13975; CX 13975 10779 11283;
  CX 11283 11348 13725; CA 13726 13725 13724; CX 13724 11348 11347; CX 3786 11347 13722; CX 3787 11283 13727; CX 13727 11348 11794; CX 11794 11413 13477; CA 13478 13477 13476;
  CX 13476 11413 11412; CX 3851 11412 13474; CX 3852 11794 13479; CX 13479 11413 11858; CX 3917 11858 13231; CX 13231 11478 11922; CX 11922 11543 12981; CA 12982 12981 12980;
  CX 12980 11543 11542; CX 3982 11922 12983; CX 12983 11543 11986; CX 11986 11608 12733; CX 11858 11478 13229; CA 13230 13229 13228; CX 13228 11478 11477; CX 3916 11477 13226;
  CX 3981 11542 12978; CX 4047 11986 12735; CX 12735 11608 12050; CX 4112 12050 12487; CA 12734 12733 12732; CX 12732 11608 11607; CX 4046 11607 12730; CX 11219 10779 13973;
  CA 13974 13973 13972; CX 13972 10779 10778; CX 3721 10778 13970; CX 11027 10584 14717; CA 14718 14717 14716; CX 14716 10584 10583; CX 11026 10583 14713; CX 14715 10583 11090;
  CX 11090 10648 14465; CA 14466 14465 14464; CX 14464 10648 10647; CX 3590 10647 14462; CX 3526 10583 14714; CA 14714 14713 14712; CX 14712 10583 10582; CX 11025 10582 14709;
  CX 14711 10582 11089; CX 3590 11089 14463; CX 14463 10647 11153; CX 3655 11153 14215; CX 3525 10582 14710; CA 14710 14709 14708; CX 14708 10582 10581; CX 11089 10647 14461;
  CA 14462 14461 14460; CX 14460 10647 10646; CX 3589 10646 14458; CX 3524 10581 14706; CX 3591 11090 14467; CX 14467 10648 11154; CX 3656 11154 14219; CX 14219 10713 11218;
  CX 11154 10713 14217; CX 3721 11218 13971; CX 13971 10778 11282; CX 3786 11282 13723; CX 13723 11347 11793; CX 3851 11793 13475; CX 11793 11412 13473; CA 13474 13473 13472;
  CX 13472 11412 11411; CX 3850 11411 13470; CX 11282 11347 13721; CA 13722 13721 13720; CX 13720 11347 11346; CX 3785 11346 13718; CX 13475 11412 11857; CX 3916 11857 13227;
  CX 11857 11477 13225; CA 13226 13225 13224; CX 13224 11477 11476; CX 3915 11476 13222; CX 13227 11477 11921; CX 11921 11542 12977; CA 12978 12977 12976; CX 12976 11542 11541;
  CX 3980 11541 12974; CX 3981 11921 12979; CX 12979 11542 11985; CX 11985 11607 12729; CX 4046 11985 12731; CX 12731 11607 12049; CX 4111 12049 12483; CA 12730 12729 12728;
  CX 12728 11607 11606; CX 4045 11606 12726; CX 11218 10778 13969; CA 13970 13969 13968; CX 13968 10778 10777; CA 14218 14217 14216; CX 14216 10713 10712; CX 14215 10712 11217;
  CX 3655 10712 14214; CX 11217 10777 13965; CX 11153 10712 14213; CA 14214 14213 14212; CX 14212 10712 10711; CX 3720 11217 13967; CX 13967 10777 11281; CX 3785 11281 13719;
  CX 13719 11346 11792; CX 3850 11792 13471; CX 13471 11411 11856; CX 3915 11856 13223; CX 11856 11476 13221; CA 13222 13221 13220; CX 13220 11476 11475; CX 11281 11346 13717;
  CA 13718 13717 13716; CX 13716 11346 11345; CX 3914 11475 13218; CX 11792 11411 13469; CA 13470 13469 13468; CX 13468 11411 11410; CX 3784 11345 13714; CX 13223 11476 11920;
  CX 3980 11920 12975; CX 11920 11541 12973; CA 12974 12973 12972; CX 12972 11541 11540; CX 3979 11540 12970; CX 3849 11410 13466; CX 3720 10777 13966; CA 13966 13965 13964;
  CX 13964 10777 10776; CX 3719 10776 13962; CX 3654 10711 14210; CX 12975 11541 11984; CX 4045 11984 12727; CX 12727 11606 12048; CX 4110 12048 12479; CX 11984 11606 12725;
  CA 12726 12725 12724; CX 12724 11606 11605; CX 4044 11605 12722; CX 9687 9752 15945; CA 15946 15945 15944; CX 15944 9752 9751; CX 3263 9751 15695; CX 15695 10320 10831].
(** Lines 27205-27604 of the file. *)
Definition mult2_64_68 : list cg := [
  CX 3328 10831 15447; CX 9751 10320 15693; CA 15694 15693 15692; CX 15692 10320 10319; CX 3327 10319 15443; CX 15699 10321 10832; CX 3329 10832 15451; CX 15451 10386 10896;
  CX 10896 10451 15201; CX 10832 10386 15449; CX 3394 10896 15203; CX 15203 10451 10960; CX 3459 10960 14955; CX 14955 10516 11024; CX 11024 10581 14705; CX 3524 11024 14707;
  CX 14707 10581 11088; CX 11088 10646 14457; CA 14458 14457 14456; CX 14456 10646 10645; CX 3588 10645 14454; CA 14706 14705 14704; CX 14704 10581 10580; CX 3523 10580 14702;
  CA 15202 15201 15200; CX 15200 10451 10450; CX 3393 10450 15198; CA 15450 15449 15448; CX 15448 10386 10385; CX 3328 10385 15446; CX 15447 10385 10895; CX 10895 10450 15197;
  CX 10831 10385 15445; CA 15446 15445 15444; CX 3393 10895 15199; CX 15199 10450 10959; CX 3458 10959 14951; CX 15444 10385 10384; CX 15443 10384 10894; CX 3392 10894 15195;
  CX 10319 10384 15441; CX 10960 10516 14953; CA 14954 14953 14952; CX 14952 10516 10515; CX 3458 10515 14950; CX 10959 10515 14949; CA 14950 14949 14948; CX 14948 10515 10514;
  CX 14951 10515 11023; CX 11023 10580 14701; CA 14702 14701 14700; CX 3523 11023 14703; CX 14703 10580 11087; CX 11087 10645 14453; CA 14454 14453 14452; CX 14452 10645 10644;
  CX 3587 10644 14450; CX 3588 11087 14455; CX 14455 10645 11151; CX 3653 11151 14207; CX 14700 10580 10579; CX 3522 10579 14698; CX 3457 10514 14946; CX 3589 11088 14459;
  CX 14459 10646 11152; CX 3654 11152 14211; CX 14211 10711 11216; CX 3719 11216 13963; CX 13963 10776 11280; CX 11280 11345 13713; CA 13714 13713 13712; CX 13712 11345 11344;
  CX 3783 11344 13710; CX 3784 11280 13715; CX 13715 11345 11791; CX 3849 11791 13467; CX 13467 11410 11855; CX 11855 11475 13217; CA 13218 13217 13216; CX 11791 11410 13465;
  CX 11152 10711 14209; CA 14210 14209 14208; CX 14208 10711 10710; CX 11151 10710 14205; CX 3653 10710 14206; CX 14207 10710 11215; CA 13466 13465 13464; CX 13464 11410 11409;
  CX 3848 11409 13462; CX 13216 11475 11474; CX 3913 11474 13214; CX 3718 11215 13959; CA 14206 14205 14204; CX 14204 10710 10709; CX 3652 10709 14202; CX 11216 10776 13961;
  CA 13962 13961 13960; CX 13960 10776 10775; CX 3718 10775 13958; CX 13959 10775 11279; CX 3783 11279 13711; CX 11279 11344 13709; CX 13711 11344 11790; CX 3848 11790 13463;
  CX 13463 11409 11854; CX 11854 11474 13213; CA 13214 13213 13212; CX 13212 11474 11473; CX 3912 11473 13210; CX 11790 11409 13461; CA 13462 13461 13460; CA 13710 13709 13708;
  CX 13708 11344 11343; CX 3782 11343 13706; CX 11215 10775 13957; CA 13958 13957 13956; CX 13956 10775 10774; CX 3717 10774 13954; CX 3913 11854 13215; CX 13215 11474 11918;
  CX 3978 11918 12967; CX 13460 11409 11408; CX 3847 11408 13458; CX 3327 10384 15442; CA 15442 15441 15440; CX 15440 10384 10383; CX 3391 10383 15191; CA 15198 15197 15196;
  CX 15196 10450 10449; CX 15195 10449 10958; CX 10958 10514 14945; CA 14946 14945 14944; CX 3457 10958 14947; CX 10894 10449 15193; CX 14944 10514 10513; CX 14947 10514 11022;
  CX 11022 10579 14697; CA 14698 14697 14696; CX 3522 11022 14699; CX 14699 10579 11086; CX 14696 10579 10578; CX 3521 10578 14694; CX 11086 10644 14449; CX 3587 11086 14451;
  CX 14451 10644 11150; CX 11150 10709 14201; CA 14202 14201 14200; CX 14200 10709 10708; CX 3651 10708 14198; CA 14450 14449 14448; CX 14448 10644 10643; CX 3586 10643 14446;
  CX 3652 11150 14203; CX 14203 10709 11214; CX 3717 11214 13955; CX 13955 10774 11278; CX 3782 11278 13707; CX 13707 11343 11789; CX 3847 11789 13459; CX 11278 11343 13705;
  CA 13706 13705 13704; CX 13704 11343 11342; CX 3781 11342 13702; CX 11789 11408 13457; CX 11214 10774 13953; CA 13954 13953 13952; CX 13952 10774 10773; CX 3716 10773 13950;
  CA 13458 13457 13456; CX 13456 11408 11407; CX 3846 11407 13454; CX 3456 10513 14942; CX 3392 10449 15194; CA 15194 15193 15192; CX 15192 10449 10448; CX 10383 10448 15189;
  CX 15191 10448 10957; CX 10957 10513 14941; CA 14942 14941 14940; CX 14940 10513 10512; CX 3455 10512 14938; CX 3391 10448 15190; CA 15190 15189 15188; CX 15188 10448 10447;
  CX 10447 10512 14937; CX 3455 10447 14939; CX 14939 10512 11020; CX 3456 10957 14943; CX 14943 10513 11021; CX 3521 11021 14695; CX 11021 10578 14693; CX 14695 10578 11085;
  CX 11085 10643 14445; CA 14446 14445 14444; CX 3586 11085 14447; CX 14444 10643 10642; CX 3585 10642 14442; CA 14694 14693 14692; CX 14692 10578 10577; CX 3520 10577 14690;
  CX 11020 10577 14689; CA 14690 14689 14688; CX 14688 10577 10576; CX 3519 10576 14686; CA 14938 14937 14936; CX 14936 10512 10511; CX 3519 10511 14687; CX 14687 10576 11083;
  CX 10511 10576 14685; CA 14686 14685 14684; CX 14684 10576 10575; CX 3584 11083 14439; CX 3583 10575 14435; CX 3520 11020 14691; CX 14691 10577 11084; CX 3585 11084 14443;
  CX 14443 10642 11148; CX 11084 10642 14441; CA 14442 14441 14440; CX 14440 10642 10641; CX 14439 10641 11147; CX 11083 10641 14437; CX 3584 10641 14438; CA 14438 14437 14436;
  CX 14436 10641 10640; CX 14435 10640 11146; CX 10575 10640 14433; CX 3583 10640 14434; CA 14434 14433 14432; CX 3648 11146 14187; CX 14432 10640 10639; CX 3647 10639 14183;
  CX 14447 10643 11149; CX 3651 11149 14199; CX 11149 10708 14197; CA 14198 14197 14196; CX 14196 10708 10707; CX 11148 10707 14193; CX 14199 10708 11213; CX 11213 10773 13949;
  CA 13950 13949 13948; CX 13948 10773 10772; CX 3715 10772 13946; CX 3716 11213 13951; CX 13951 10773 11277; CX 11277 11342 13701; CX 3781 11277 13703; CX 13703 11342 11788;
  CX 11788 11407 13453; CA 13454 13453 13452; CX 3846 11788 13455; CX 13455 11407 11852; CX 13452 11407 11406; CX 3845 11406 13450; CA 13702 13701 13700; CX 13700 11342 11341;
  CX 3780 11341 13698; CX 3911 11852 13207; CX 3649 11147 14191; CX 3650 10707 14194; CA 14194 14193 14192; CX 14192 10707 10706; CX 3649 10706 14190; CX 14191 10706 11211;
  CX 3714 11211 13943; CX 11147 10706 14189; CA 14190 14189 14188; CX 14188 10706 10705; CX 11146 10705 14185; CX 3648 10705 14186; CX 14187 10705 11210; CX 3713 11210 13939;
  CA 14186 14185 14184; CX 14184 10705 10704; CX 14183 10704 11209; CX 3712 11209 13935; CX 3647 10704 14182; CX 10639 10704 14181; CA 14182 14181 14180; CX 14180 10704 10703;
  CX 3650 11148 14195; CX 14195 10707 11212; CX 11212 10772 13945; CA 13946 13945 13944; CX 13944 10772 10771; CX 13943 10771 11275; CX 3779 11275 13695; CX 3715 11212 13947;
  CX 13947 10772 11276; CX 11276 11341 13697; CA 13698 13697 13696; CX 13696 11341 11340; CX 13695 11340 11786; CX 11275 11340 13693; CX 3779 11340 13694; CA 13694 13693 13692;
  CX 13692 11340 11339; CX 3778 11339 13690; CX 3844 11786 13447; CX 3714 10771 13942; CX 11211 10771 13941; CA 13942 13941 13940; CX 13940 10771 10770; CX 3713 10770 13938;
  CX 13939 10770 11274; CX 3778 11274 13691; CX 11274 11339 13689; CX 13691 11339 11785; CX 3843 11785 13443; CA 13690 13689 13688; CX 13688 11339 11338; CX 3777 11338 13686;
  CX 11210 10770 13937; CA 13938 13937 13936; CX 13936 10770 10769; CX 11209 10769 13933; CX 3712 10769 13934; CA 13934 13933 13932; CX 13932 10769 10768; CX 3711 10768 13930;
  CX 10703 10768 13929; CA 13930 13929 13928; CX 13928 10768 10767; CX 3775 10767 13679; CX 3780 11276 13699; CX 13699 11341 11787; CX 11787 11406 13449; CA 13450 13449 13448;
  CX 13448 11406 11405; CX 13447 11405 11850; CX 11786 11405 13445; CX 3909 11850 13199; CX 3844 11405 13446; CA 13446 13445 13444; CX 13444 11405 11404; CX 11785 11404 13441;
  CX 3843 11404 13442; CX 13443 11404 11849; CX 3908 11849 13195; CX 3845 11787 13451; CX 13451 11406 11851; CX 3910 11851 13203; CA 13442 13441 13440; CX 13440 11404 11403;
  CX 3842 11403 13438; CX 3914 11855 13219; CX 13219 11475 11919; CX 11919 11540 12969; CA 12970 12969 12968; CX 12968 11540 11539; CX 3978 11539 12966; CX 12967 11539 11982;
  CX 4043 11982 12719; CX 11918 11539 12965; CX 3979 11919 12971; CX 12971 11540 11983; CX 11983 11605 12721; CX 4044 11983 12723; CX 12723 11605 12047; CX 4109 12047 12475;
  CA 12722 12721 12720; CX 12720 11605 11604; CX 4043 11604 12718; CX 12719 11604 12046; CX 4108 12046 12471; CX 11982 11604 12717; CA 12718 12717 12716; CX 12716 11604 11603;
  CX 4042 11603 12714; CA 12966 12965 12964; CX 12964 11539 11538; CX 3977 11538 12962; CX 13459 11408 11853; CX 3912 11853 13211; CX 13211 11473 11917; CX 3977 11917 12963;
  CX 11917 11538 12961; CX 11853 11473 13209; CA 13210 13209 13208; CX 13208 11473 11472; CX 13207 11472 11916; CX 3976 11916 12959; CX 3911 11472 13206; CX 11852 11472 13205;
  CA 13206 13205 13204; CX 12963 11538 11981; CX 11981 11603 12713; CX 4042 11981 12715; CX 12715 11603 12045; CX 4107 12045 12467; CA 12714 12713 12712; CX 12712 11603 11602;
  CX 4041 11602 12710; CA 12962 12961 12960; CX 12960 11538 11537; CX 11916 11537 12957; CX 3976 11537 12958; CA 12958 12957 12956; CX 12956 11537 11536; CX 3975 11536 12954].
(** Lines 27605-28004 of the file. *)
Definition mult2_64_69 : list cg := [
  CX 12959 11537 11980; CX 11980 11602 12709; CA 12710 12709 12708; CX 12708 11602 11601; CX 4040 11601 12706; CX 4041 11980 12711; CX 12711 11602 12044; CX 4106 12044 12463;
  CX 13204 11472 11471; CX 13203 11471 11915; CX 11915 11536 12953; CA 12954 12953 12952; CX 12952 11536 11535; CX 3910 11471 13202; CX 3974 11535 12950; CX 3975 11915 12955;
  CX 12955 11536 11979; CX 4040 11979 12707; CX 11979 11601 12705; CX 12707 11601 12043; CX 4105 12043 12459; CX 11851 11471 13201; CA 13202 13201 13200; CX 13200 11471 11470;
  CX 3909 11470 13198; CX 13199 11470 11914; CX 11850 11470 13197; CA 13198 13197 13196; CX 13196 11470 11469; CX 11914 11535 12949; CA 12950 12949 12948; CX 12948 11535 11534;
  CX 3908 11469 13194; CX 11849 11469 13193; CA 13194 13193 13192; CX 13192 11469 11468; CX 3907 11468 13190; CX 3973 11534 12946; CX 13195 11469 11913; CX 11913 11534 12945;
  CA 12946 12945 12944; CX 12944 11534 11533; CX 3972 11533 12942; CX 3973 11913 12947; CX 12947 11534 11977; CX 4038 11977 12699; CA 12706 12705 12704; CX 12704 11601 11600;
  CX 4039 11600 12702; CX 3974 11914 12951; CX 12951 11535 11978; CX 11978 11600 12701; CA 12702 12701 12700; CX 12700 11600 11599; CX 11977 11599 12697; CX 12699 11599 12041;
  CX 4103 12041 12451; CX 4038 11599 12698; CA 12698 12697 12696; CX 12696 11599 11598; CX 4037 11598 12694; CX 4039 11978 12703; CX 12703 11600 12042; CX 4104 12042 12455;
  CA 12490 12489 12488; CX 12488 11674 11673; CX 12487 11673 12114; CX 4177 12114 12239; CX 4112 11673 12486; CX 12050 11673 12485; CA 12486 12485 12484; CX 12484 11673 11672;
  CX 12049 11672 12481; CX 12483 11672 12113; CX 4176 12113 12235; CX 4111 11672 12482; CA 12482 12481 12480; CX 12480 11672 11671; CX 12048 11671 12477; CX 12479 11671 12112;
  CX 4175 12112 12231; CX 4110 11671 12478; CA 12478 12477 12476; CX 12476 11671 11670; CX 12047 11670 12473; CX 4109 11670 12474; CA 12474 12473 12472; CX 12472 11670 11669;
  CX 12046 11669 12469; CX 4108 11669 12470; CA 12470 12469 12468; CX 12471 11669 12110; CX 4173 12110 12223; CX 12468 11669 11668; CX 4107 11668 12466; CX 12467 11668 12109;
  CX 4172 12109 12219; CX 12045 11668 12465; CA 12466 12465 12464; CX 12464 11668 11667; CX 12463 11667 12108; CX 12044 11667 12461; CX 4106 11667 12462; CA 12462 12461 12460;
  CX 12460 11667 11666; CX 4105 11666 12458; CX 12459 11666 12107; CX 4170 12107 12211; CX 12043 11666 12457; CA 12458 12457 12456; CX 12456 11666 11665; CX 12042 11665 12453;
  CX 4104 11665 12454; CA 12454 12453 12452; CX 12455 11665 12106; CX 4169 12106 12207; CX 12452 11665 11664; CX 4103 11664 12450; CX 12451 11664 12105; CX 4168 12105 12203;
  CX 12041 11664 12449; CA 12450 12449 12448; CX 12448 11664 11663; CX 4102 11663 12446; CX 4171 12108 12215; CX 12475 11670 12111; CX 4174 12111 12227; CX 3711 10703 13931;
  CX 13931 10768 11272; CX 3776 11272 13683; CX 13935 10769 11273; CX 3777 11273 13687; CX 13687 11338 11784; CX 3842 11784 13439; CX 11273 11338 13685; CA 13686 13685 13684;
  CX 13684 11338 11337; CX 11272 11337 13681; CX 3776 11337 13682; CA 13682 13681 13680; CX 13680 11337 11336; CX 3775 11336 13678; CX 11784 11403 13437; CX 13439 11403 11848;
  CX 3907 11848 13191; CX 13191 11468 11912; CX 11848 11468 13189; CA 13190 13189 13188; CX 13188 11468 11467; CX 3906 11467 13186; CX 11912 11533 12941; CA 12942 12941 12940;
  CX 12940 11533 11532; CX 3971 11532 12938; CX 3972 11912 12943; CX 12943 11533 11976; CX 11976 11598 12693; CA 12694 12693 12692; CX 12692 11598 11597; CX 4037 11976 12695;
  CX 12695 11598 12040; CX 4102 12040 12447; CX 12447 11663 12104; CX 12040 11663 12445; CA 12446 12445 12444; CX 12444 11663 11662; CX 4101 11662 12442; CX 4036 11597 12690;
  CX 4167 12104 12199; CX 13679 11336 11782; CX 3840 11782 13431; CX 10767 11336 13677; CA 13678 13677 13676; CX 13676 11336 11335; CX 3839 11335 13427; CX 13683 11337 11783;
  CX 3841 11783 13435; CA 13438 13437 13436; CX 13436 11403 11402; CX 3841 11402 13434; CX 13435 11402 11847; CX 11847 11467 13185; CA 13186 13185 13184; CX 13184 11467 11466;
  CX 3906 11847 13187; CX 13187 11467 11911; CX 11911 11532 12937; CX 11783 11402 13433; CA 13434 13433 13432; CX 13432 11402 11401; CX 3840 11401 13430; CX 11782 11401 13429;
  CX 13431 11401 11846; CX 11846 11466 13181; CX 3905 11846 13183; CA 13430 13429 13428; CX 13428 11401 11400; CX 13427 11400 11845; CX 3904 11845 13179; CX 11335 11400 13425;
  CX 3839 11400 13426; CA 13426 13425 13424; CX 13424 11400 11399; CX 3905 11466 13182; CA 13182 13181 13180; CX 13180 11466 11465; CX 3904 11465 13178; CX 11845 11465 13177;
  CX 13179 11465 11909; CX 3969 11909 12931; CA 13178 13177 13176; CX 13176 11465 11464; CX 3903 11464 13174; CX 11399 11464 13173; CA 13174 13173 13172; CX 13172 11464 11463;
  CX 3967 11463 12923; CA 12938 12937 12936; CX 12936 11532 11531; CX 13183 11466 11910; CX 11910 11531 12933; CX 3970 11531 12934; CA 12934 12933 12932; CX 12932 11531 11530;
  CX 12931 11530 11973; CX 4034 11973 12683; CX 11909 11530 12929; CX 3969 11530 12930; CA 12930 12929 12928; CX 12928 11530 11529; CX 3968 11529 12926; CX 3903 11399 13175;
  CX 13175 11464 11908; CX 11908 11529 12925; CX 3968 11908 12927; CX 12927 11529 11972; CA 12926 12925 12924; CX 12924 11529 11528; CX 12923 11528 11971; CX 3967 11528 12922;
  CX 4033 11972 12679; CX 4032 11971 12675; CX 3970 11910 12935; CX 12935 11531 11974; CX 4035 11974 12687; CX 3971 11911 12939; CX 12939 11532 11975; CX 4036 11975 12691;
  CX 11975 11597 12689; CA 12690 12689 12688; CX 12688 11597 11596; CX 11974 11596 12685; CX 4035 11596 12686; CA 12686 12685 12684; CX 12684 11596 11595; CX 4034 11595 12682;
  CX 11973 11595 12681; CA 12682 12681 12680; CX 12680 11595 11594; CX 11972 11594 12677; CX 4033 11594 12678; CA 12678 12677 12676; CX 12676 11594 11593; CX 4032 11593 12674;
  CX 11971 11593 12673; CA 12674 12673 12672; CX 12675 11593 12035; CX 12672 11593 11592; CX 4031 11592 12670; CX 4097 12035 12427; CX 12679 11594 12036; CX 4098 12036 12431;
  CX 12691 11597 12039; CX 4101 12039 12443; CX 12443 11662 12103; CX 12039 11662 12441; CA 12442 12441 12440; CX 12440 11662 11661; CX 12683 11595 12037; CX 4100 11661 12438;
  CX 4099 12037 12435; CX 11463 11528 12921; CA 12922 12921 12920; CX 12920 11528 11527; CX 4031 11527 12671; CX 12671 11592 12034; CX 4096 12034 12423; CX 11527 11592 12669;
  CA 12670 12669 12668; CX 12668 11592 11591; CX 4095 11591 12419; CX 4166 12103 12195; CX 12687 11596 12038; CX 12038 11661 12437; CX 4100 12038 12439; CX 12439 11661 12102;
  CX 4165 12102 12191; CA 12438 12437 12436; CX 12436 11661 11660; CX 12435 11660 12101; CX 4164 12101 12187; CX 12037 11660 12433; CX 4099 11660 12434; CA 12434 12433 12432;
  CX 12432 11660 11659; CX 4098 11659 12430; CX 12431 11659 12100; CX 4163 12100 12183; CX 12036 11659 12429; CA 12430 12429 12428; CX 12428 11659 11658; CX 12427 11658 12099;
  CX 4162 12099 12179; CX 4097 11658 12426; CX 12035 11658 12425; CA 12426 12425 12424; CX 12424 11658 11657; CX 12034 11657 12421; CX 4096 11657 12422; CA 12422 12421 12420;
  CX 12420 11657 11656; CX 4095 11656 12418; CX 11591 11656 12417; CA 12418 12417 12416; CX 12416 11656 11655; CX 4159 11655 12167; CX 12419 11656 12097; CX 4160 12097 12171;
  CX 12423 11657 12098; CX 4161 12098 12175; CX 12244 11739 11738; CX 4178 11738 12242; CX 12243 11738 28075; CX 12115 11738 12241; CA 12242 12241 12240; CX 12240 11738 11737;
  CX 12239 11737 28076; CX 4177 11737 12238; CX 12114 11737 12237; CA 12238 12237 12236; CX 12236 11737 11736; CX 4176 11736 12234; CX 12113 11736 12233; CX 12235 11736 28077;
  CA 12234 12233 12232; CX 12232 11736 11735; CX 12231 11735 28078; CX 12112 11735 12229; CX 4175 11735 12230; CA 12230 12229 12228; CX 12228 11735 11734; CX 12227 11734 28079;
  CX 12111 11734 12225; CX 4174 11734 12226; CA 12226 12225 12224; CX 12224 11734 11733; CX 12110 11733 12221; CX 4173 11733 12222; CA 12222 12221 12220; CX 12220 11733 11732;
  CX 4172 11732 12218; CX 12109 11732 12217; CX 12219 11732 28081; CX 12223 11733 28080; CA 12218 12217 12216; CX 12216 11732 11731; CX 12108 11731 12213; CX 12215 11731 28082;
  CX 4171 11731 12214; CA 12214 12213 12212; CX 12212 11731 11730; CX 12107 11730 12209; CX 4170 11730 12210; CA 12210 12209 12208; CX 12208 11730 11729; CX 12106 11729 12205;
  CX 4169 11729 12206; CX 12207 11729 28084; CA 12206 12205 12204; CX 12204 11729 11728; CX 4168 11728 12202; CX 12203 11728 28085; CX 12105 11728 12201; CA 12202 12201 12200;
  CX 12200 11728 11727; CX 4167 11727 12198; CX 12104 11727 12197; CX 12199 11727 28086; CX 12211 11730 28083; CA 12198 12197 12196; CX 12196 11727 11726; CX 4166 11726 12194;
  CX 12103 11726 12193; CX 12195 11726 28087; CA 12194 12193 12192; CX 12192 11726 11725; CX 12102 11725 12189; CX 4165 11725 12190; CA 12190 12189 12188; CX 12188 11725 11724].
(** Lines 28005-28036 of the file. *)
Definition mult2_64_70 : list cg := [
  CX 12187 11724 28089; CX 4164 11724 12186; CX 12101 11724 12185; CA 12186 12185 12184; CX 12184 11724 11723; CX 12183 11723 28090; CX 12100 11723 12181; CX 4163 11723 12182;
  CA 12182 12181 12180; CX 12180 11723 11722; CX 12179 11722 28091; CX 4162 11722 12178; CX 12099 11722 12177; CA 12178 12177 12176; CX 12176 11722 11721; CX 4161 11721 12174;
  CX 12098 11721 12173; CA 12174 12173 12172; CX 12172 11721 11720; CX 12171 11720 28093; CX 12097 11720 12169; CX 4160 11720 12170; CA 12170 12169 12168; CX 12168 11720 11719;
  CX 11655 11719 12165; CX 4159 11719 12166; CA 12166 12165 12164; CX 12164 11719 28095; CX 12175 11721 28092; CX 12167 11719 28094; CX 12191 11725 28088; CA 64 0 28096].
(** /repo/src/circuits/arithmetic/mult2_64.txt; lines 1-4 are the header. *)
Definition mult2_64_gates : list cg := concat [mult2_64_0; mult2_64_1; mult2_64_2; mult2_64_3; mult2_64_4; mult2_64_5; mult2_64_6; mult2_64_7; mult2_64_8; mult2_64_9; mult2_64_10; mult2_64_11; mult2_64_12; mult2_64_13; mult2_64_14; mult2_64_15; mult2_64_16; mult2_64_17; mult2_64_18; mult2_64_19; mult2_64_20; mult2_64_21; mult2_64_22; mult2_64_23; mult2_64_24; mult2_64_25; mult2_64_26; mult2_64_27; mult2_64_28; mult2_64_29; mult2_64_30; mult2_64_31; mult2_64_32; mult2_64_33; mult2_64_34; mult2_64_35; mult2_64_36; mult2_64_37; mult2_64_38; mult2_64_39; mult2_64_40; mult2_64_41; mult2_64_42; mult2_64_43; mult2_64_44; mult2_64_45; mult2_64_46; mult2_64_47; mult2_64_48; mult2_64_49; mult2_64_50; mult2_64_51; mult2_64_52; mult2_64_53; mult2_64_54; mult2_64_55; mult2_64_56; mult2_64_57; mult2_64_58; mult2_64_59; mult2_64_60; mult2_64_61; mult2_64_62; mult2_64_63; mult2_64_64; mult2_64_65; mult2_64_66; mult2_64_67; mult2_64_68; mult2_64_69; mult2_64_70].
Definition mult2_64 : netlist := NL ("28032 28160"%string, "2 64 64 "%string, "2 64 64 "%string, ""%string) (28032, 28160, [64; 64], [64; 64]) mult2_64_gates (Blank 2).
