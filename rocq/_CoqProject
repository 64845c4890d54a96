-Q theories Verif
theories/Arith.v
theories/Outcome.v
theories/ColorModel.v
theories/HexModel.v
theories/GammaModel.v
theories/GammaPtr.v
theories/MatrixModel.v
theories/SpaceModel.v
theories/Heap.v
theories/Converter.v
theories/F32.v
theories/RArith.v
theories/F32Facts.v
theories/Spec.v
theories/Spec32.v
theories/Laws.v
theories/NormalForms.v
theories/History.v
theories/Core_Proofs.v
theories/Core2_Proofs.v
theories/Hex_Proofs.v
theories/Scale255.v
theories/Core3_Proofs.v
theories/Hue32.v
theories/Core4_Proofs.v
theories/Props_Core.v
theories/Spec_Matrix.v
theories/Spec_Space.v
theories/Gamma_Proofs.v
theories/Gamma2_Proofs.v
theories/GammaPtr_Proofs.v
theories/Matrix_Proofs.v
theories/Matrix2_Proofs.v
theories/Props_Matrix.v
theories/Det_Proofs.v
theories/Invert_Proofs.v
theories/Space_Proofs.v
theories/Props_Space.v
theories/Alpha8.v
theories/Spec_Conv.v
theories/Conv_Proofs.v
theories/Conv2_Proofs.v
theories/Conv3_Proofs.v
theories/Total_Proofs.v
theories/Convert_Proofs.v
theories/Run_Proofs.v
theories/Props_Conv.v
theories/Spec_Round.v
theories/HueR_Proofs.v
theories/Round_Proofs.v
theories/Round2_Proofs.v
theories/Round3_Proofs.v
theories/RoundEx_Proofs.v
theories/Props_Round.v
theories/Calculation.v
theories/Spec_Calc.v
theories/Calc_Proofs.v
theories/Calc2_Proofs.v
theories/Calc3_Proofs.v
theories/Calc4_Proofs.v
theories/CalcEx_Proofs.v
theories/Props_Calc.v
theories/Blend.v
theories/Spec_Blend.v
theories/Blend_Proofs.v
theories/Blend32_Proofs.v
theories/Blend2_Proofs.v
theories/Blend3_Proofs.v
theories/BlendHcy_Proofs.v
theories/Blend4_Proofs.v
theories/Props_Blend.v
theories/Adjust.v
theories/Spec_Adjust.v
theories/Adjust_Proofs.v
theories/Adjust2_Proofs.v
theories/Props_Adjust.v
theories/Combine.v
theories/Spec_Combine.v
theories/Combine_Proofs.v
theories/Combine2_Proofs.v
theories/Props_Combine.v
theories/Distance.v
theories/Spec_Distance.v
theories/Spec_Distance2.v
theories/Distance_Proofs.v
theories/Distance2_Proofs.v
theories/Distance3_Proofs.v
theories/Distance4_Proofs.v
theories/Distance5_Proofs.v
theories/Distance6_Proofs.v
theories/Props_Distance.v
theories/Adapt.v
theories/Spec_Adapt.v
theories/Adapt_Proofs.v
theories/Adapt2_Proofs.v
theories/Adapt3_Proofs.v
theories/Adapt4_Proofs.v
theories/Props_Adapt.v
theories/Space2_Proofs.v
theories/Predef.v
theories/Spec_Predef.v
theories/Predef_Proofs.v
theories/Props_Extra.v
theories/Client.v
theories/Client_Proofs.v
theories/Props_Client.v
theories/Spec_Formula.v
theories/Polar_Proofs.v
theories/Formula_Proofs.v
theories/Formula2_Proofs.v
theories/Formula3_Proofs.v
theories/FormulaEx_Proofs.v
theories/Grey_Proofs.v
theories/Props_Formula.v
theories/Spec_Sum.v
theories/Sum_Proofs.v
theories/Sum2_Proofs.v
theories/Sum3_Proofs.v
theories/Props_Sum.v
theories/Spec_Error.v
theories/Error_Proofs.v
theories/Error2_Proofs.v
theories/Error3_Proofs.v
theories/Error4_Proofs.v
theories/Error5_Proofs.v
theories/Error6_Proofs.v
theories/Error7_Proofs.v
theories/Error8_Proofs.v
theories/Props_Error.v
theories/Linear_Proofs.v
theories/Linear2_Proofs.v
theories/Pow_Proofs.v
theories/Curve_Proofs.v
theories/Xyz8_Proofs.v
theories/CieRgb_Proofs.v
theories/PowRef_Proofs.v
theories/Props_Xyz.v
theories/Spec_Leak.v
theories/Leak_Proofs.v
theories/Props_Leak.v
theories/Wide_Proofs.v
theories/Lab8_Proofs.v
theories/Xyy8_Proofs.v
theories/Detour_Proofs.v
theories/Detour2_Proofs.v
theories/Props_Lab.v
theories/Spec_Byte.v
theories/Byte_Proofs.v
theories/Byte2_Proofs.v
theories/Whole_Proofs.v
theories/Byte3_Proofs.v
theories/Props_Byte.v
theories/Gamut_Proofs.v
theories/Gamut2_Proofs.v
theories/Props_Gamut.v
theories/Veil_Proofs.v
theories/Veil2_Proofs.v
theories/Veil3_Proofs.v
theories/Veil4_Proofs.v
theories/Props_Veil.v
theories/Mean_Proofs.v
theories/Props_Mean.v
theories/Spec_Rank.v
theories/Rank_Proofs.v
theories/Props_Rank.v
theories/Sep_Proofs.v
theories/Props_Sep.v
theories/Mono_Proofs.v
theories/Props_Mono.v
theories/Helpers.v
theories/Helpers_Proofs.v
theories/Props_Helpers.v
theories/Spec_Tame.v
theories/Tame_Proofs.v
theories/Props_Tame.v
theories/Weight_Proofs.v
theories/Props_Weight.v
theories/Spec_Mix.v
theories/Mix_Proofs.v
theories/Props_Mix.v
theories/Spec_Turn.v
theories/Turn_Proofs.v
theories/Turn2_Proofs.v
theories/Turn3_Proofs.v
theories/Turn4_Proofs.v
theories/Props_Turn.v
theories/Spec_Route.v
theories/Route_Proofs.v
theories/Props_Route.v
theories/Spec_Preset.v
theories/Preset_Proofs.v
theories/Props_Preset.v
theories/Neutral_Proofs.v
theories/Props_Neutral.v
theories/Spec_Algebra.v
theories/Assoc_Proofs.v
theories/Mirror_Proofs.v
theories/Mirror2_Proofs.v
theories/Mirror3_Proofs.v
theories/Compare_Proofs.v
theories/Chain_Proofs.v
theories/Props_Algebra.v
theories/Spec_Order.v
theories/Order_Proofs.v
theories/Order2_Proofs.v
theories/Order3_Proofs.v
theories/Order4_Proofs.v
theories/Order5_Proofs.v
theories/Props_Order.v
theories/Det2_Proofs.v
theories/Det3_Proofs.v
theories/Props_Det.v
theories/Spec_Grey.v
theories/Grey32_Proofs.v
theories/Grey33_Proofs.v
theories/Props_Grey32.v
theories/Adjust32_Proofs.v
theories/Adjust33_Proofs.v
theories/Adjust34_Proofs.v
theories/Adjust35_Proofs.v
theories/Props_Adjust32.v
theories/Spec_Css.v
theories/Css_Proofs.v
theories/Props_Css.v
theories/Leak2_Proofs.v
theories/Props_Leak2.v
theories/Spec_Law.v
theories/Law_Proofs.v
theories/Law2_Proofs.v
theories/Props_Law.v
theories/Spec_Metric.v
theories/Metric_Proofs.v
theories/Props_Metric.v
theories/Alpha2_Proofs.v
theories/Props_Alpha2.v
theories/Spec_Channels.v
theories/Oneway_Proofs.v
theories/Oneway2_Proofs.v
theories/Props_Oneway.v
theories/Spec_Film.v
theories/Film_Proofs.v
theories/Film2_Proofs.v
theories/Props_Film.v
theories/Spec_Near.v
theories/Stable_Proofs.v
theories/Props_Stable.v
theories/White_Proofs.v
theories/Spec_Mean.v
theories/Mean2_Proofs.v
theories/Mean3_Proofs.v
theories/Props_Mean2.v
theories/Mean4_Proofs.v
theories/Spec_Stretch.v
theories/Stretch_Proofs.v
theories/Stretch2_Proofs.v
theories/Props_Stretch.v
theories/Spec_Lab.v
theories/Lab9_Proofs.v
theories/Lab10_Proofs.v
theories/Props_Lab2.v
theories/Unused_Proofs.v
theories/Props_Rest.v
theories/Xyy_Proofs.v
theories/Xyy2_Proofs.v
theories/Props_Xyy.v
theories/Generic_Proofs.v
theories/Props_Generic.v
theories/Place_Proofs.v
theories/Props_Place.v
theories/Through_Proofs.v
theories/Props_Through.v
theories/AdaptVia_Proofs.v
theories/Props_AdaptVia.v
theories/Through2_Proofs.v
theories/Props_Through2.v
theories/Scheme2_Proofs.v
theories/Props_Scheme2.v
theories/Twice_Proofs.v
theories/Props_Twice.v
theories/Distinct_Proofs.v
theories/Props_Distinct.v
theories/Setters_Proofs.v
theories/Props_Setters.v
theories/HueMean_Proofs.v
theories/Props_HueMean.v
theories/Premul_Proofs.v
theories/Props_Premul.v
theories/Hull_Proofs.v
theories/Props_Hull.v
theories/Regroup_Proofs.v
theories/Props_Regroup.v
theories/AvgOrder_Proofs.v
theories/Props_AvgOrder.v
