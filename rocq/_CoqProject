-Q theories Verif

theories/Base.v
theories/Num.v
theories/RVec.v
theories/Geometry.v
theories/Grid.v
theories/LLModel.v
theories/Spec_Grid.v
theories/Grid_facts.v
theories/Grid_R.v
theories/Grid_thm.v
theories/Api.v
theories/Spec_Geom.v
theories/Mirror.v
theories/Demo.v
theories/Grid_props.v
theories/Props_Grid.v
theories/Geom_thm.v
theories/Spec_File.v
theories/File_thm.v
theories/Props_Geom.v
theories/Spec_LL.v
theories/Spec_BS.v
theories/LL_state.v
theories/LL_R.v
theories/LL_solve.v
theories/LL_props.v
theories/BS_thm.v
theories/LL_thm.v
theories/LL_thm2.v
theories/LL_scale.v
theories/LL_sym.v
theories/LL_thm3.v
theories/Linalg.v
theories/Demo_LL.v
theories/Props_LL.v
theories/PropModel.v
theories/Spec_Prop.v
theories/Prop_state.v
theories/Prop_thm.v
theories/Prop_thm2.v
theories/Prop_thm3.v
theories/Prop_thm4.v
theories/Prop_thm5.v
theories/Prop_thm6.v
theories/Prop_thm7.v
theories/Props_Prop.v
theories/MU.v
theories/Spec_MU.v
theories/MU_thm.v
theories/MU_thm2.v
theories/MU_thm3.v
theories/MU_thm4.v
theories/MU_thm5.v
theories/MU_thm6.v
theories/MU_thm7.v
theories/MU_thm8.v
theories/MU_thm9.v
theories/MU_thm10.v
theories/MU_thm11.v
theories/MU_thm12.v
theories/MU_thm13.v
theories/Linalg2.v
theories/MU_thm14.v
theories/MU_thm15.v
theories/MU_thm16.v
theories/Demo_MU.v
theories/Demo_MU2.v
theories/Demo_MU3.v
theories/Demo_NaN.v
theories/MU_thm17.v
theories/Props_MU.v
theories/Stl.v
theories/Spec_Stl.v
theories/Stl_thm.v
theories/Stl_thm2.v
theories/Stl_R.v
theories/Stl_thm3.v
theories/Stl_thm4.v
theories/Stl_thm5.v
theories/Demo_Stl.v
theories/Stl_thm6.v
theories/Props_Stl.v
theories/Fixed.v
theories/Conformance_data.v
theories/Conformance.v
theories/Spec_Blade.v
theories/Prop_thm8.v
theories/Prop_thm9.v
theories/Demo_Blade.v
theories/Props_Blade.v
theories/Spec_Slip.v
theories/Prop_thm10.v
theories/Spec_Section.v
theories/Prop_thm11.v
theories/Section_thm.v
theories/Demo_Section.v
theories/Props_Section.v
theories/Spec_Dist.v
theories/MU_thm18.v
theories/Demo_Dist.v
theories/Props_Dist.v
theories/Spec_Units.v
theories/LL_units.v
theories/MU_units.v
theories/Demo_Units.v
theories/Props_Units.v
theories/Spec_Resp.v
theories/LL_resp.v
theories/Props_Resp.v
theories/Spec_Place.v
theories/LL_place.v
theories/MU_place.v
theories/Props_Place.v
theories/Spec_Mirror.v
theories/LL_mirror.v
theories/LL_mirror2.v
theories/LL_mirror3.v
theories/MU_mirror.v
theories/Demo_Mirror.v
theories/Props_Mirror.v
theories/Spec_Order.v
theories/LL_order.v
theories/Grid_order.v
theories/MU_order.v
theories/MU_order2.v
theories/Order_api.v
theories/Props_Order.v
theories/Prop_units.v
theories/Prop_units2.v
theories/Spec_Chord.v
theories/Prop_chord.v
theories/Props_Chord.v
theories/Spec_MirrorProp.v
theories/Prop_mirror.v
theories/MU_mirror2.v
theories/MU_order3.v
theories/Demo_Twin.v
theories/Props_MirrorProp.v
theories/Spec_Memory.v
theories/Prop_memory.v
theories/MU_memory.v
theories/Demo_Memory.v
theories/Props_Memory.v
theories/Live.v
theories/Spec_Live.v
theories/MU_live.v
theories/Props_Live.v
theories/Prop_twin.v
theories/Spec_Twin.v
theories/MU_twin.v
theories/Demo_TwinD.v
theories/Props_Twin.v
theories/MU_speed.v
theories/Props_Speed.v
theories/Spec_Few.v
theories/Prop_few.v
theories/Props_Few.v
